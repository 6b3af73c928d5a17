(** * C105: the keys, as text

    [TextKeys] is the Rust text of fhevm/src/keys.rs, translated by tools/gen_keys.py over
    the parameters of [TextParams]; the operations of the library are the record [RustKeys].
    Keys.v is the model written by hand (C70). *)
Require Import ZArith List Bool Lia.
From Verif Require Import Rust RustIter RustParams RustKeys.
From Verif Require Params Keys PropKeys TextParams TextKeys PropTextParams.
Import ListNotations.
Open Scope Z_scope.
Module TP := Verif.TextParams.
Module TK := Verif.TextKeys.
Module P := Verif.Params.
Module K := Verif.Keys.
Module TPP := Verif.PropTextParams.

(** A map of the text holds what a map of the model holds. *)
Definition same_map {A} (m : list (int I64 * A)) (n : list (Z * A)) : Prop :=
  forall g, Rust.find m g = K.get n (val g).

Lemma get_app : forall {A} (a b : list (Z * A)) k, K.get (a ++ b) k = match K.get b k with Some v => Some v | None => K.get a k end.
Proof.
  intros A a b k. induction a as [|(k', v) a IH]; cbn [app K.get]; [destruct (K.get b k); reflexivity|].
  rewrite IH. destruct (K.get b k); reflexivity.
Qed.
(** the last insertion comes first in the text and last in the model *)
Lemma same_rev : forall {A} (m : list (int I64 * A)), same_map m (map (fun x => (val (fst x), snd x)) (rev m)).
Proof.
  intros A m g. induction m as [|(k, v) m IH]; [reflexivity|]. cbn [Rust.find rev]. rewrite map_app, get_app. cbn [map fst snd K.get].
  unfold eq. destruct (val g =? val k); [reflexivity|exact IH].
Qed.
Lemma same_in : forall {A} (m : list (int I64 * A)) g, Rust.find m g <> None <-> In (val g) (map (fun x => val (fst x)) m).
Proof.
  intros A m g. induction m as [|(k, v) m IH]; cbn [Rust.find map In fst]; [tauto|]. unfold eq.
  destruct (Z.eqb_spec (val g) (val k)) as [->|N]; [split; [left; reflexivity|discriminate]|].
  rewrite IH. split; [right; assumption|]. intros [E|E]; [congruence|exact E].
Qed.

(** the parameters of which every layout exists *)
Definition bases_ok (q : P.params) : Prop :=
  TPP.degrees_ok q /\ P.b_fhe q <> 0 /\ P.b_brk q <> 0 /\ P.b_atk q <> 0 /\ P.b_tsk q <> 0.
Lemma layouts : forall q p, bases_ok q -> exists evk bdd,
  TP.CryptographicParameters_evk_ram_infos p (TPP.params_of q) = Some evk /\
  TP.CryptographicParameters_bdd_key_layout p (TPP.params_of q) = Some bdd /\
  option_map TPP.as_gglwe (P.evk_layout q) = Some evk /\
  option_map (fun c => mk_BDDKeyLayout c (Some (TPP.as_switch (P.ks_glwe_layout q))) (TPP.as_lwe (P.ks_lwe_layout q))) (TPP.cbt_of q) = Some bdd.
Proof.
  intros q p (D & B1 & B2 & B3 & B4).
  destruct (TPP.C104_ciphertexts p q D) as (_ & _ & _ & _ & _ & E). destruct (TPP.C104_keys p q D) as (_ & _ & _ & F & _).
  rewrite E, F. unfold P.evk_layout, TPP.cbt_of, P.brk_layout, P.atk_layout, P.tsk_layout, P.cbt_layout, P.div_ceil.
  apply Z.eqb_neq in B1, B2, B3, B4. rewrite B1, B2, B3, B4. cbn. eauto 6.
Qed.

Section Keys.
Variable L : library.
(** the ring of the parameters, and its Galois elements *)
Definition ring_of (q : P.params) : Module := mk_Module (Int (P.p_n q)).
Definition gal (q : P.params) : list (int I64) := GLWE_trace_galois_elements L (ring_of q).
Definition evk_of (q : P.params) : option GGLWELayout := option_map TPP.as_gglwe (P.evk_layout q).
Definition bdd_of (q : P.params) : option BDDKeyLayout :=
  option_map (fun c => mk_BDDKeyLayout c (Some (TPP.as_switch (P.ks_glwe_layout q))) (TPP.as_lwe (P.ks_lwe_layout q))) (TPP.cbt_of q).

(** ** Allocation *)
Lemma insert_all : forall {A} (f : int I64 -> A) l m,
  for_each l (fun g acc => Some (insert acc g (f g))) m = Some (rev (map (fun g => (g, f g)) l) ++ m).
Proof.
  intros A f l. induction l as [|g l IH]; intros m; [reflexivity|]. cbn [for_each map rev]. rewrite IH, <- app_assoc. reflexivity.
Qed.
Theorem C105_alloc : forall p q, bases_ok q -> exists evk bdd, evk_of q = Some evk /\ bdd_of q = Some bdd /\
  TK.VMKeysPrepared_alloc L p (TPP.params_of q) =
  Some (TK.mk_VMKeysPrepared (rev (map (fun g => (g, GLWEAutomorphismKeyPrepared_alloc_from_infos L (ring_of q) evk)) (gal q)))
          (BDDKeyPrepared_alloc_from_infos L (ring_of q) bdd)).
Proof.
  intros p q BO. destruct (layouts q p BO) as (evk & bdd & E & B & E' & B'). exists evk, bdd. split; [exact E'|]. split; [exact B'|].
  unfold TK.VMKeysPrepared_alloc. rewrite E, B. cbn [TP.CryptographicParameters_module_fn]. cbv zeta.
  unfold TP.CryptographicParameters_module_fn. fold (ring_of q). change (TP.CryptographicParameters_module (TPP.params_of q)) with (ring_of q).
  rewrite (insert_all (fun _ => GLWEAutomorphismKeyPrepared_alloc_from_infos L (ring_of q) evk)). unfold map_new. rewrite app_nil_r. reflexivity.
Qed.

(** ** Preparation *)
Variable sc : Scratch L.
(** what the library makes of a key in this scratch space *)
Variable pk : Module -> GLWEAutomorphismKey L -> GLWEAutomorphismKeyPrepared L.
Variable pb : Module -> BDDKey L -> BDDKeyPrepared L.
Definition prepares : Prop :=
  (forall b m k, GLWEAutomorphismKeyPrepared_prepare L b m k sc = Some (pk m k)) /\
  (forall b m k, BDDKeyPrepared_prepare L b m k sc = Some (pb m k)).

Lemma prepare_all : prepares -> forall m (other : list (int I64 * GLWEAutomorphismKey L)) (self : list (int I64 * GLWEAutomorphismKeyPrepared L)),
  match for_mut self (fun '(k, key) (_ : unit) =>
     t1 <- Rust.find other k ;; t2 <- GLWEAutomorphismKeyPrepared_prepare L key m t1 sc ;; Some ((k, t2), tt)) tt with
  | Some (l, _) => length l = length self /\ map fst l = map fst self /\
      (forall x, In x self -> Rust.find other (fst x) <> None) /\
      forall x, In x l -> option_map (pk m) (Rust.find other (fst x)) = Some (snd x)
  | None => exists x, In x self /\ Rust.find other (fst x) = None
  end.
Proof.
  intros (PK & _) m other self. induction self as [|(k, b) self IH]; [cbn; split; [reflexivity|]; split; [reflexivity|]; split; intros x []|].
  cbn [for_mut]. destruct (Rust.find other k) as [o|] eqn:F.
  - rewrite PK. destruct (for_mut self _ tt) as [[l []]|].
    + destruct IH as (I1 & I2 & I3 & I4). cbn. split; [congruence|]. split; [congruence|].
      split; intros x [<-|H]; cbn; auto; rewrite F; [discriminate|reflexivity].
    + destruct IH as (x & I & E). exists x. split; [right; exact I|exact E].
  - exists (k, b). split; [left; reflexivity|exact F].
Qed.

Lemma find_entry : forall {A} (l : list (int I64 * A)) g v, Rust.find l g = Some v -> exists x, In x l /\ val (fst x) = val g /\ snd x = v.
Proof.
  intros A l g v. induction l as [|(k, w) l IH]; [discriminate|]. cbn [Rust.find]. unfold eq. destruct (Z.eqb_spec (val g) (val k)) as [E|E].
  - intros [= <-]. exists (k, w). split; [left; reflexivity|]. split; [symmetry; exact E|reflexivity].
  - intros H. destruct (IH H) as (x & I & R). exists x. split; [right; exact I|exact R].
Qed.
Lemma find_val : forall {A} (l : list (int I64 * A)) g h, val g = val h -> Rust.find l g = Rust.find l h.
Proof. intros A l g h E. induction l as [|(k, w) l IH]; [reflexivity|]. cbn [Rust.find]. unfold eq. rewrite E, IH. reflexivity. Qed.

(** Preparing any keys in a machine just allocated: a panic exactly if a key for one of the
    machine's Galois elements is missing; else, for each of these elements and no other, what
    the library makes of the key given for it. *)
Theorem C105_prepare : prepares -> forall p q, bases_ok q -> forall m other v,
  TK.VMKeysPrepared_alloc L p (TPP.params_of q) = Some v ->
  (TK.VMKeysPrepared_prepare L p v m other sc = None <->
     exists g, In g (gal q) /\ Rust.find (TK.VMKeys_evk_ram other) g = None) /\
  (forall w, TK.VMKeysPrepared_prepare L p v m other sc = Some w ->
     (forall g, In (val g) (map val (gal q)) ->
        Rust.find (TK.VMKeysPrepared_atk_glwe w) g = option_map (pk m) (Rust.find (TK.VMKeys_evk_ram other) g)) /\
     (forall g, ~ In (val g) (map val (gal q)) -> Rust.find (TK.VMKeysPrepared_atk_glwe w) g = None) /\
     TK.VMKeysPrepared_bdd_key w = pb m (TK.VMKeys_bdd_key other)).
Proof.
  intros PR p q BO m other v A. destruct (C105_alloc p q BO) as (evk & bdd & _ & _ & AT). rewrite AT in A. injection A as <-.
  unfold TK.VMKeysPrepared_prepare. cbn [TK.VMKeysPrepared_atk_glwe TK.VMKeysPrepared_bdd_key]. cbv zeta.
  pose proof (prepare_all PR m (TK.VMKeys_evk_ram other) (rev (map (fun g => (g, GLWEAutomorphismKeyPrepared_alloc_from_infos L (ring_of q) evk)) (gal q)))) as PA.
  set (self := rev _) in *.
  assert (IN : forall g, In g (gal q) <-> exists x, In x self /\ fst x = g).
  { intros g. unfold self. split.
    - intros I. eexists. split; [rewrite <- in_rev; apply in_map_iff; exists g; split; [reflexivity|exact I]|reflexivity].
    - intros (x & I & <-). rewrite <- in_rev in I. apply in_map_iff in I. destruct I as (y & <- & I). exact I. }
  assert (KEYS : forall g : int I64, In (val g) (map val (gal q)) <-> In (val g) (map (fun x => val (fst x)) self)).
  { intros g. split; intros H; apply in_map_iff in H; apply in_map_iff.
    - destruct H as (y & E & I). apply IN in I. destruct I as (x & I & <-). exists x. split; [exact E|exact I].
    - destruct H as (x & E & I). exists (fst x). split; [exact E|]. apply IN. exists x. split; [exact I|reflexivity]. }
  clearbody self. destruct (for_mut self _ tt) as [[l []]|].
  - destruct PA as (P1 & P2 & P3 & P4). destruct PR as (_ & PB). rewrite PB. split.
    + split; [discriminate|]. intros (g & I & N). exfalso. apply IN in I. destruct I as (x & I & <-). exact (P3 x I N).
    + intros w [= <-]. cbn [TK.VMKeysPrepared_atk_glwe TK.VMKeysPrepared_bdd_key TK.set_VMKeysPrepared_atk_glwe TK.set_VMKeysPrepared_bdd_key].
      assert (W : write_back self l = l). { unfold write_back. rewrite P1, skipn_all, app_nil_r. reflexivity. }
      rewrite W. assert (ML : map (fun x => val (fst x)) l = map (fun x => val (fst x)) self).
      { rewrite <- !(map_map fst val), P2. reflexivity. }
      split; [|split].
      * intros g I. apply KEYS in I. rewrite <- ML in I. apply same_in in I. destruct (Rust.find l g) as [b|] eqn:F; [|congruence].
        destruct (find_entry l g b F) as (x & IX & E & <-). rewrite <- (P4 x IX). f_equal. apply find_val. exact E.
      * intros g I. destruct (Rust.find l g) eqn:F; [|reflexivity]. exfalso. apply I. apply KEYS. rewrite <- ML. apply same_in. rewrite F. discriminate.
      * reflexivity.
  - split; [|discriminate]. split; [|reflexivity]. intros _. destruct PA as (x & I & N). exists (fst x). split; [apply IN; exists x; split; [exact I|reflexivity]|exact N].
Qed.

(** Allocation and preparation are the model's: for the key map of any client. *)
Theorem C105_model : prepares -> forall p q, bases_ok q -> exists evk, evk_of q = Some evk /\ exists v,
  TK.VMKeysPrepared_alloc L p (TPP.params_of q) = Some v /\
  let blank := GLWEAutomorphismKeyPrepared_alloc_from_infos L (ring_of q) evk in
  same_map (TK.VMKeysPrepared_atk_glwe v) (K.alloc_keys _ blank (map val (gal q))) /\
  forall m other n, same_map (TK.VMKeys_evk_ram other) n ->
    match TK.VMKeysPrepared_prepare L p v m other sc, K.prepare_keys _ _ (pk m) (K.alloc_keys _ blank (map val (gal q))) n with
    | Some w, Some n' => same_map (TK.VMKeysPrepared_atk_glwe w) n'
    | None, None => True
    | _, _ => False
    end.
Proof.
  intros PR p q BO. destruct (C105_alloc p q BO) as (evk & bdd & E & _ & A). exists evk. split; [exact E|]. eexists. split; [exact A|]. cbv zeta. split.
  - intros g. cbn [TK.VMKeysPrepared_atk_glwe]. rewrite same_rev, rev_involutive, map_map. unfold K.alloc_keys. rewrite map_map. reflexivity.
  - intros m other n SM. destruct (C105_prepare PR p q BO m other _ A) as (C1 & C2).
    set (blank := GLWEAutomorphismKeyPrepared_alloc_from_infos L (ring_of q) evk) in *.
    pose proof (PropKeys.prepare_alloc _ _ (pk m) blank (map val (gal q)) n) as PA.
    destruct (TK.VMKeysPrepared_prepare L p _ m other sc) as [w|], (K.prepare_keys _ _ _ _ _) as [n'|].
    + destruct (C2 w Logic.eq_refl) as (W1 & W2 & _). destruct PA as (_ & PA). intros g. rewrite PA. destruct (in_dec Z.eq_dec (val g) _) as [I|I].
      * rewrite (W1 g I). rewrite SM. reflexivity.
      * exact (W2 g I).
    + destruct PA as (k & I & N). apply in_map_iff in I. destruct I as (g & <- & I). rewrite <- SM in N.
      destruct C1 as (_ & C1). specialize (C1 (ex_intro _ g (conj I N))). discriminate.
    + destruct C1 as (C1 & _). destruct (C1 Logic.eq_refl) as (g & I & N). destruct PA as (PA & _). apply (PA (val g)); [apply in_map; exact I|]. rewrite <- SM. exact N.
    + exact Logic.I.
Qed.

(** ** Encryption *)
(** The keys are made one after the other, in the order of the Galois elements; each takes the
    sources of randomness where the one before left them. *)
Inductive made (m : Module) (evk : GGLWELayout) (sk : GLWESecret L) (s : Scratch L) :
  list (int I64) -> Source L * Source L -> list (int I64 * GLWEAutomorphismKey L) -> Source L * Source L -> Prop :=
| made_nil : forall x, made m evk sk s [] x [] x
| made_cons : forall g l xa xe k xa' xe' ks x,
    GLWEAutomorphismKey_encrypt_sk L (GLWEAutomorphismKey_alloc_from_infos L evk) m g sk xa xe s = Some (k, xa', xe') ->
    made m evk sk s l (xa', xe') ks x -> made m evk sk s (g :: l) (xa, xe) ((g, k) :: ks) x.

Lemma made_loop : forall m evk sk s l xa xe acc,
  match for_each l (fun g '(xa, xe, acc) =>
     '(k, xa', xe') <- GLWEAutomorphismKey_encrypt_sk L (GLWEAutomorphismKey_alloc_from_infos L evk) m g sk xa xe s ;;
     Some (xa', xe', insert acc g k)) (xa, xe, acc) with
  | Some (ya, ye, acc') => exists ks, made m evk sk s l (xa, xe) ks (ya, ye) /\ acc' = rev ks ++ acc
  | None => exists g ya ye, In g l /\ GLWEAutomorphismKey_encrypt_sk L (GLWEAutomorphismKey_alloc_from_infos L evk) m g sk ya ye s = None
  end.
Proof.
  intros m evk sk s l. induction l as [|g l IH]; intros xa xe acc; [exists []; split; [constructor|reflexivity]|].
  cbn [for_each]. destruct (GLWEAutomorphismKey_encrypt_sk L _ m g sk xa xe s) as [[[k xa'] xe']|] eqn:E.
  - specialize (IH xa' xe' (insert acc g k)). destruct (for_each l _ _) as [[[ya ye] acc']|].
    + destruct IH as (ks & M & ->). exists ((g, k) :: ks). split; [econstructor; eassumption|]. cbn [rev]. rewrite <- app_assoc. reflexivity.
    + destruct IH as (h & ya & ye & I & N). exists h, ya, ye. split; [right; exact I|exact N].
  - exists g, xa, xe. split; [left; reflexivity|exact E].
Qed.

Theorem C105_order : forall p q, bases_ok q -> forall sl sg xa xe ya ye ks,
  TK.VMKeys_encrypt_sk L p (TPP.params_of q) sl sg xa xe = Some (ya, ye, ks) ->
  exists evk bdd so l za ze,
    evk_of q = Some evk /\ bdd_of q = Some bdd /\
    ScratchOwned_alloc L (Int (Z.max (val (GLWEAutomorphismKey_encrypt_sk_tmp_bytes L (ring_of q) evk))
                                     (val (Module_bdd_key_encrypt_sk_tmp_bytes L (ring_of q) bdd)))) = Some so /\
    made (ring_of q) evk sg (ScratchOwned_borrow L so) (gal q) (xa, xe) l (za, ze) /\
    BDDKey_encrypt_sk L (BDDKey_alloc_from_infos L bdd) (ring_of q) sl sg za ze (ScratchOwned_borrow L so) = Some (TK.VMKeys_bdd_key ks, ya, ye) /\
    TK.VMKeys_evk_ram ks = rev l.
Proof.
  intros p q BO sl sg xa xe ya ye ks. destruct (layouts q p BO) as (evk & bdd & E & B & E' & B').
  unfold TK.VMKeys_encrypt_sk. rewrite E, B. unfold TP.CryptographicParameters_module_fn. cbv zeta.
  change (TP.CryptographicParameters_module (TPP.params_of q)) with (ring_of q).
  destruct (ScratchOwned_alloc L _) as [so|] eqn:SO; [|discriminate].
  pose proof (made_loop (ring_of q) evk sg (ScratchOwned_borrow L so) (gal q) xa xe map_new) as ML. unfold gal in ML.
  destruct (for_each _ _ _) as [[[za ze] acc]|]; [|discriminate]. destruct ML as (l & M & ->).
  destruct (BDDKey_encrypt_sk L _ _ _ _ za ze _) as [[[b ya'] ye']|] eqn:BE; [|discriminate].
  intros [= <- <- <-]. exists evk, bdd, so, l, za, ze. split; [exact E'|]. split; [exact B'|]. split; [exact SO|]. split; [exact M|].
  split; [exact BE|]. cbn [TK.VMKeys_evk_ram]. unfold map_new. apply app_nil_r.
Qed.

(** What is asked of the library: scratch space of the size asked for, and that making a key
    succeeds in scratch space of at least the size it names; [good sk g k] says what a key for
    [g] under the secret [sk] is. *)
Variable room : Scratch L -> Z.
Variable good : GLWESecret L -> Z -> GLWEAutomorphismKey L -> Prop.
Definition encrypts : Prop :=
  (forall n, exists so, ScratchOwned_alloc L n = Some so /\ val n <= room (ScratchOwned_borrow L so)) /\
  (forall m evk g sk xa xe s, val (GLWEAutomorphismKey_encrypt_sk_tmp_bytes L m evk) <= room s ->
     exists k xa' xe', GLWEAutomorphismKey_encrypt_sk L (GLWEAutomorphismKey_alloc_from_infos L evk) m g sk xa xe s = Some (k, xa', xe') /\ good sk (val g) k) /\
  (forall m bdd sl sg xa xe s, val (Module_bdd_key_encrypt_sk_tmp_bytes L m bdd) <= room s ->
     exists k xa' xe', BDDKey_encrypt_sk L (BDDKey_alloc_from_infos L bdd) m sl sg xa xe s = Some (k, xa', xe')).

(** Making the keys never panics, and there is then a good key for each Galois element of the
    parameters, and none else. *)
Theorem C105_encrypt : encrypts -> forall p q, bases_ok q -> forall sl sg xa xe,
  exists ya ye ks, TK.VMKeys_encrypt_sk L p (TPP.params_of q) sl sg xa xe = Some (ya, ye, ks) /\
    (forall g, In (val g) (map val (gal q)) -> exists k, Rust.find (TK.VMKeys_evk_ram ks) g = Some k /\ good sg (val g) k) /\
    (forall g, ~ In (val g) (map val (gal q)) -> Rust.find (TK.VMKeys_evk_ram ks) g = None).
Proof.
  intros (EA & EK & EB) p q BO sl sg xa xe.
  assert (R : TK.VMKeys_encrypt_sk L p (TPP.params_of q) sl sg xa xe <> None).
  { destruct (layouts q p BO) as (evk & bdd & E & B & E' & B').
    unfold TK.VMKeys_encrypt_sk. rewrite E, B. unfold TP.CryptographicParameters_module_fn. cbv zeta.
    change (TP.CryptographicParameters_module (TPP.params_of q)) with (ring_of q).
    lazymatch goal with |- context [ScratchOwned_alloc L ?n] => destruct (EA n) as (so & SO & RO) end.
    rewrite SO. cbn [max val] in RO.
    pose proof (made_loop (ring_of q) evk sg (ScratchOwned_borrow L so) (gal q) xa xe map_new) as ML. unfold gal in ML.
    destruct (for_each _ _ _) as [[[za ze] acc]|].
    - destruct (EB (ring_of q) bdd sl sg za ze (ScratchOwned_borrow L so)) as (k & ya & ye & ->); [lia|]. discriminate.
    - destruct ML as (g & ya & ye & _ & N).
      destruct (EK (ring_of q) evk g sg ya ye (ScratchOwned_borrow L so)) as (k & ? & ? & S & _); [lia|congruence]. }
  destruct (TK.VMKeys_encrypt_sk L p (TPP.params_of q) sl sg xa xe) as [[[ya ye] ks]|] eqn:T; [|congruence].
  exists ya, ye, ks. split; [reflexivity|].
  destruct (C105_order p q BO sl sg xa xe ya ye ks T) as (evk & bdd & so & l & za & ze & E & B & SO & M & _ & KS).
  rewrite KS. assert (RO : val (GLWEAutomorphismKey_encrypt_sk_tmp_bytes L (ring_of q) evk) <= room (ScratchOwned_borrow L so)).
  { destruct (EA (Int (Z.max (val (GLWEAutomorphismKey_encrypt_sk_tmp_bytes L (ring_of q) evk))
      (val (Module_bdd_key_encrypt_sk_tmp_bytes L (ring_of q) bdd))))) as (so' & SO' & RO). rewrite SO in SO'. injection SO' as <-. cbn [val] in RO. lia. }
  assert (G : map fst l = gal q /\ Forall (fun x => good sg (val (fst x)) (snd x)) l).
  { clear - M RO EK. remember (xa, xe) as x eqn:X. clear X. induction M as [x|g l xa' xe' k xb xf ks x S M IH]; [split; [reflexivity|constructor]|].
    destruct IH as (I1 & I2). cbn [map fst]. split; [congruence|]. constructor; [|exact I2].
    destruct (EK (ring_of q) evk g sg xa' xe' _ RO) as (k' & ? & ? & S' & GD). rewrite S in S'. injection S' as <- _ _. exact GD. }
  destruct G as (G1 & G2).
  assert (KEYS : forall g : int I64, In (val g) (map val (gal q)) <-> Rust.find (rev l) g <> None).
  { intros g. rewrite same_in, <- G1, map_map, map_rev, <- in_rev. reflexivity. }
  split; intros g I.
  - apply KEYS in I. destruct (Rust.find (rev l) g) as [k|] eqn:F; [|congruence]. exists k. split; [reflexivity|].
    destruct (find_entry _ g k F) as (x & IX & EX & <-). rewrite <- in_rev in IX. rewrite Forall_forall in G2. rewrite <- EX. exact (G2 x IX).
  - destruct (Rust.find (rev l) g) eqn:F; [|reflexivity]. exfalso. apply I. apply KEYS. congruence.
Qed.

(** From the secret to the machine: keys made for parameters with at least the Galois elements
    of the machine's can be prepared, and the machine finds, for each of its elements and no other,
    the prepared form of a good key for that element. *)
Theorem C105_keys : encrypts -> prepares ->
  (forall m g, Entries_get_automorphism_key L m g = Rust.find m g) ->
  forall p q q', bases_ok q -> bases_ok q' -> incl (map val (gal q)) (map val (gal q')) ->
  forall m sl sg xa xe, exists ya ye ks v w,
    TK.VMKeys_encrypt_sk L p (TPP.params_of q') sl sg xa xe = Some (ya, ye, ks) /\
    TK.VMKeysPrepared_alloc L p (TPP.params_of q) = Some v /\
    TK.VMKeysPrepared_prepare L p v m ks sc = Some w /\
    (forall g, In (val g) (map val (gal q)) -> exists k, good sg (val g) k /\
       TK.VMKeysPrepared_get_automorphism_key L p w g = Some (Some (pk m k))) /\
    (forall g, ~ In (val g) (map val (gal q)) -> TK.VMKeysPrepared_get_automorphism_key L p w g = Some None).
Proof.
  intros EN PR GE p q q' BO BO' INC m sl sg xa xe.
  destruct (C105_encrypt EN p q' BO' sl sg xa xe) as (ya & ye & ks & T & T1 & T2).
  destruct (C105_alloc p q BO) as (evk & bdd & _ & _ & A).
  exists ya, ye, ks. eexists. destruct (C105_prepare PR p q BO m ks _ A) as (C1 & C2).
  destruct (TK.VMKeysPrepared_prepare L p _ m ks sc) as [w|] eqn:W.
  - exists w. split; [exact T|]. split; [exact A|]. split; [exact W|]. destruct (C2 w Logic.eq_refl) as (W1 & W2 & _).
    unfold TK.VMKeysPrepared_get_automorphism_key. split; intros g I; rewrite GE.
    + destruct (T1 g (INC _ I)) as (k & F & GD). exists k. split; [exact GD|]. rewrite (W1 g I), F. reflexivity.
    + rewrite (W2 g I). reflexivity.
  - exfalso. destruct C1 as (C1 & _). destruct (C1 Logic.eq_refl) as (g & I & N).
    destruct (T1 g (INC _ (in_map val _ _ I))) as (k & F & _). congruence.
Qed.

(** The bootstrapping key and its layouts are those the library finds in the prepared one. *)
Theorem C105_bdd : forall p v,
  TK.VMKeysPrepared_get_cbt_key L p v = Some (BDDKeyPrepared_get_cbt_key L (TK.VMKeysPrepared_bdd_key v)) /\
  TK.VMKeysPrepared_cbt_infos L p v = Some (BDDKeyPrepared_cbt_infos L (TK.VMKeysPrepared_bdd_key v)) /\
  TK.VMKeysPrepared_ks_glwe_infos L p v = Some (BDDKeyPrepared_ks_glwe_infos L (TK.VMKeysPrepared_bdd_key v)) /\
  TK.VMKeysPrepared_ks_lwe_infos L p v = Some (BDDKeyPrepared_ks_lwe_infos L (TK.VMKeysPrepared_bdd_key v)) /\
  TK.VMKeysPrepared_automorphism_key_infos L p v = Some (Entries_automorphism_key_infos L (TK.VMKeysPrepared_atk_glwe v)).
Proof. intros. repeat split. Qed.
(** A client's own map. *)
Theorem C105_client : forall p m b m', exists ks, TK.VMKeys_new L p m b = Some ks /\
  TK.VMKeys_evk_ram_fn L p ks = Some m /\
  exists ks', TK.VMKeys_set_evk_ram L p ks m' = Some ks' /\ TK.VMKeys_evk_ram_fn L p ks' = Some m' /\ TK.VMKeys_bdd_key ks' = b.
Proof. intros. eexists. split; [reflexivity|]. split; [reflexivity|]. eexists. repeat split. Qed.
End Keys.
Print Assumptions C105_prepare.
Print Assumptions C105_model.
Print Assumptions C105_order.
Print Assumptions C105_encrypt.
Print Assumptions C105_keys.
Print Assumptions C105_bdd.
Print Assumptions C105_client.

(** A small library: a source is a counter, a key for [g] is [(secret, g, xa, xe)], preparing
    it keeps it; three Galois elements.  The prepared map finds the keys in the order of
    the elements, the bootstrapping key takes the fourth draw, and a client without the key
    for 25 makes the preparation panic. *)
Definition toy : library := {|
  Scratch := Z; ScratchOwned := Z; Source := Z; GLWESecret := Z; LWESecret := Z;
  GLWEAutomorphismKey := list Z; GLWEAutomorphismKeyPrepared := list Z; BDDKey := list Z; BDDKeyPrepared := list Z;
  CircuitBootstrappingKeyPrepared := unit; GLWESwitchingKeyPrepared := unit; GLWEToLWEKeyPrepared := unit;
  GLWE_trace_galois_elements := fun _ => [Int 5; Int 25; Int (-1)];
  ScratchOwned_alloc := fun n => Some (val n); ScratchOwned_borrow := fun s => s;
  GLWEAutomorphismKey_encrypt_sk_tmp_bytes := fun _ _ => Int 100;
  GLWEAutomorphismKey_alloc_from_infos := fun _ => [];
  GLWEAutomorphismKey_encrypt_sk := fun _ _ g sk xa xe s => if s <? 100 then None else Some ([sk; val g; xa; xe], xa + 1, xe + 10);
  GLWEAutomorphismKeyPrepared_alloc_from_infos := fun _ _ => [];
  GLWEAutomorphismKeyPrepared_prepare := fun _ _ k _ => Some k;
  Module_bdd_key_encrypt_sk_tmp_bytes := fun _ _ => Int 200;
  BDDKey_alloc_from_infos := fun _ => [];
  BDDKey_encrypt_sk := fun _ _ sl sg xa xe s => if s <? 200 then None else Some ([sl; sg; xa; xe], xa + 1, xe + 10);
  BDDKeyPrepared_alloc_from_infos := fun _ _ => [];
  BDDKeyPrepared_prepare := fun _ _ k _ => Some k;
  BDDKeyPrepared_cbt_infos := fun _ => mk_CircuitBootstrappingKeyLayout
    (mk_BlindRotationKeyLayout (Int 0) (Int 0) (Int 0) (Int 0) (Int 0) (Int 0))
    (mk_GLWEAutomorphismKeyLayout (Int 0) (Int 0) (Int 0) (Int 0) (Int 0) (Int 0)) (mk_GGLWEToGGSWKeyLayout (Int 0) (Int 0) (Int 0) (Int 0) (Int 0) (Int 0));
  BDDKeyPrepared_ks_glwe_infos := fun _ => None;
  BDDKeyPrepared_ks_lwe_infos := fun _ => mk_GLWEToLWEKeyLayout (Int 0) (Int 0) (Int 0) (Int 0) (Int 0);
  BDDKeyPrepared_get_cbt_key := fun _ => (tt, None, tt);
  Entries_automorphism_key_infos := fun _ => mk_GGLWELayout (Int 0) (Int 0) (Int 0) (Int 0) (Int 0) (Int 0) (Int 0);
  Entries_get_automorphism_key := fun m g => Rust.find m g |}.

Definition toy_profile : profile := {| overflow_checks := true; debug_assertions := true |}.
Lemma toy_bases : bases_ok P.params_new.
Proof. split; [apply TPP.C104_params_case|]. repeat split; discriminate. Qed.
Lemma toy_prepares : prepares toy 0 (fun _ k => k) (fun _ k => k).
Proof. split; reflexivity. Qed.
Lemma toy_encrypts : encrypts toy (fun s => s) (fun sk g k => exists xa xe, k = [sk; g; xa; xe]).
Proof.
  split; [|split].
  - intros n. exists (val n). split; [reflexivity|]. cbn. lia.
  - intros m evk g sk xa xe s R. change (100 <= s) in R. exists [sk; val g; xa; xe], (xa + 1), (xe + 10). cbn -[Z.ltb].
    destruct (Z.ltb_spec s 100); [lia|]. split; [reflexivity|]. exists xa, xe. reflexivity.
  - intros m bdd sl sg xa xe s R. change (200 <= s) in R. exists [sl; sg; xa; xe], (xa + 1), (xe + 10). cbn -[Z.ltb].
    destruct (Z.ltb_spec s 200); [lia|reflexivity].
Qed.
Example C105_toy :
  exists ks v w, TK.VMKeys_encrypt_sk toy toy_profile (TPP.params_of P.params_new) 7 8 1000 2000 = Some (1004, 2040, ks) /\
  TK.VMKeysPrepared_alloc toy toy_profile (TPP.params_of P.params_new) = Some v /\
  TK.VMKeysPrepared_prepare toy toy_profile v (ring_of P.params_new) ks 0 = Some w /\
  TK.VMKeysPrepared_get_automorphism_key toy toy_profile w (Int 25) = Some (Some [8; 25; 1001; 2010]) /\
  TK.VMKeysPrepared_get_automorphism_key toy toy_profile w (Int 7) = Some None /\
  TK.VMKeysPrepared_bdd_key w = [7; 8; 1003; 2030] /\
  TK.VMKeysPrepared_prepare toy toy_profile v (ring_of P.params_new) (TK.mk_VMKeys (L := toy) [(Int 5, []); (Int (-1), [])] []) 0 = None.
Proof. do 3 eexists. split; [vm_compute; reflexivity|]. split; [vm_compute; reflexivity|]. split; [vm_compute; reflexivity|]. vm_compute. repeat split. Qed.
