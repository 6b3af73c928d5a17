(** * The encrypted VM treats ciphertexts as opaque

    Relational parametricity of the model over the library signature: when the
    operations of two implementations respect a relation, so does a cycle run
    without the debugging key. *)
Require Import ZArith List Bool Lia.
Require Import Verif.Word Verif.Glwe Verif.Par Verif.EncMem Verif.Prepare Verif.EncEval Verif.EvalPlain Verif.EncVM Verif.ListFacts.
Import ListNotations.

Inductive ropt {X Y} (R : X -> Y -> Prop) : option X -> option Y -> Prop :=
| ropt_some : forall x y, R x y -> ropt R (Some x) (Some y)
| ropt_none : ropt R None None.

Lemma rbind {X1 X2 Y1 Y2} (R : X1 -> X2 -> Prop) (S : Y1 -> Y2 -> Prop) x1 x2 f1 f2 :
  ropt R x1 x2 -> (forall a b, R a b -> ropt S (f1 a) (f2 b)) ->
  ropt S (match x1 with Some a => f1 a | None => None end) (match x2 with Some a => f2 a | None => None end).
Proof. intros H F. destruct H; [apply F; assumption|constructor]. Qed.
Lemma rbind_eq {X Y1 Y2} (S : Y1 -> Y2 -> Prop) (x : option X) f1 f2 :
  (forall a, ropt S (f1 a) (f2 a)) ->
  ropt S (match x with Some a => f1 a | None => None end) (match x with Some a => f2 a | None => None end).
Proof. intros F. destruct x; [apply F|constructor]. Qed.
Lemma rassert {Y1 Y2} (S : Y1 -> Y2 -> Prop) (b1 b2 : bool) f1 f2 :
  b1 = b2 -> ropt S f1 f2 -> ropt S (if b1 then f1 else None) (if b2 then f2 else None).
Proof. intros -> F. destruct b2; [exact F|constructor]. Qed.

Section Lists.
Context {X Y : Type} (R : X -> Y -> Prop).
Lemma r_length l m : Forall2 R l m -> length l = length m.
Proof. induction 1; cbn; congruence. Qed.
Lemma r_nth_error l m i : Forall2 R l m -> ropt R (nth_error l i) (nth_error m i).
Proof. intros H. revert i. induction H; intros [|i]; cbn; [constructor|constructor|constructor; assumption|apply IHForall2]. Qed.
Lemma r_nth l m i x y : Forall2 R l m -> R x y -> R (nth i l x) (nth i m y).
Proof. intros H D. revert i. induction H; intros [|i]; cbn; auto. Qed.
Lemma r_set_nth l m i x y : Forall2 R l m -> R x y -> ropt (Forall2 R) (set_nth l i x) (set_nth m i y).
Proof.
  intros H D. revert i. induction H; intros [|i]; cbn; try constructor; auto.
  specialize (IHForall2 i). destruct IHForall2; constructor; auto.
Qed.
Lemma r_upd l m i x y : Forall2 R l m -> R x y -> Forall2 R (upd l i x) (upd m i y).
Proof. intros H D. revert i. induction H; intros [|i]; cbn; try constructor; auto. Qed.
Lemma r_firstn l m n : Forall2 R l m -> Forall2 R (firstn n l) (firstn n m).
Proof. intros H. revert n. induction H; intros [|n]; cbn; constructor; auto. Qed.
Lemma r_skipn l m n : Forall2 R l m -> Forall2 R (skipn n l) (skipn n m).
Proof. intros H. revert n. induction H; intros [|n]; cbn; auto. Qed.
Lemma r_repeat x y n : R x y -> Forall2 R (repeat x n) (repeat y n).
Proof. intros H. induction n; cbn; constructor; auto. Qed.
Lemma r_concat l m : Forall2 (Forall2 R) l m -> Forall2 R (concat l) (concat m).
Proof. induction 1; cbn; [constructor|apply Forall2_app; assumption]. Qed.
Lemma r_fold {I} (f : X -> I -> X) (g : Y -> I -> Y) (is_ : list I) x y :
  (forall i a b, R a b -> R (f a i) (g b i)) -> R x y -> R (fold_left f is_ x) (fold_left g is_ y).
Proof. intros F. revert x y. induction is_ as [|i t IH]; intros x y H; cbn; [exact H|apply IH, F, H]. Qed.
Lemma r_map_seq (f : nat -> X) (g : nat -> Y) (is_ : list nat) : (forall i, R (f i) (g i)) -> Forall2 R (map f is_) (map g is_).
Proof. intros F. induction is_; cbn; constructor; auto. Qed.
End Lists.
Lemma r_map {X X' Y Y'} (R : X -> Y -> Prop) (S : X' -> Y' -> Prop) f g l m :
  (forall a b, R a b -> S (f a) (g b)) -> Forall2 R l m -> Forall2 S (map f l) (map g m).
Proof. intros F. induction 1; cbn; constructor; auto. Qed.
Lemma r_run_tasks {X Y} (R : X -> Y -> Prop) (g : nat -> X -> option X) (h : nat -> Y -> option Y) order c d :
  (forall q a b, R a b -> ropt R (g q a) (h q b)) -> Forall2 R c d -> ropt (Forall2 R) (run_tasks g order c) (run_tasks h order d).
Proof.
  intros F. revert c d. induction order as [|[p q] r IH]; intros c d H; cbn [run_tasks]; [constructor; exact H|].
  eapply rbind; [apply r_nth_error; exact H|]. intros a b Hab. eapply rbind; [apply F; exact Hab|]. intros a' b' Hab'.
  eapply rbind; [apply r_set_nth; eassumption|]. intros c' d' H'. apply IH; exact H'.
Qed.

Section Rel.
Context {ct pb fu ct' pb' fu' : Type} (A : alg ct pb fu) (B : alg ct' pb' fu').
Variables (C : ct -> ct' -> Prop) (P : pb -> pb' -> Prop) (F : fu -> fu' -> Prop).
Notation Ps := (Forall2 P).
Notation Cs := (Forall2 C).

(** the operations of the two implementations respect the relation *)
Record respects : Prop := {
  r_log : log_n A = log_n B;
  r_zero : C (a_zero A) (a_zero B);
  r_rot : forall k x y, C x y -> C (a_rot A k x) (a_rot B k y);
  r_trace : forall x y, C x y -> C (a_trace A x) (a_trace B y);
  r_add : forall x y x' y', C x y -> C x' y' -> C (a_add A x x') (a_add B y y');
  r_sub : forall x y x' y', C x y -> C x' y' -> C (a_sub A x x') (a_sub B y y');
  r_crot : forall p q k x y, P p q -> C x y -> C (a_crot A p k x) (a_crot B q k y);
  r_cswap : forall p q x y x' y', P p q -> C x y -> C x' y' ->
    C (fst (a_cswap A p x x')) (fst (a_cswap B q y y')) /\ C (snd (a_cswap A p x x')) (snd (a_cswap B q y y'));
  r_retrieve : forall ps qs l m, Ps ps qs -> Cs l m -> C (a_retrieve A ps l) (a_retrieve B qs m);
  r_pack : forall l m, Cs l m -> F (a_pack A l) (a_pack B m);
  r_bit : forall v w i, F v w -> C (a_bit A v i) (a_bit B w i);
  r_boot : forall v w i, F v w -> P (a_boot A v i) (a_boot B w i);
  r_pzero : P (a_pzero A) (a_pzero B);
  r_fzero : F (a_fzero A) (a_fzero B);
  r_select : forall l m ps qs, Forall2 (fun a b => fst a = fst b /\ F (snd a) (snd b)) l m -> Ps ps qs ->
    F (a_select A l ps) (a_select B m qs);
  r_ident : forall ps qs, Ps ps qs -> F (a_ident A ps) (a_ident B qs);
  r_circ2 : forall k a b a' b', Ps a b -> Ps a' b' -> F (a_circ2 A k a a') (a_circ2 B k b b');
  r_pcup : forall a1 b1 a2 b2 a3 b3 a4 b4 a5 b5, Ps a1 b1 -> Ps a2 b2 -> Ps a3 b3 -> Ps a4 b4 -> Ps a5 b5 ->
    F (a_pcup A a1 a2 a3 a4 a5) (a_pcup B b1 b2 b3 b4 b5);
  r_zero_byte : forall k v w, F v w -> F (a_zero_byte A k v) (a_zero_byte B k w);
  r_sext : forall k v w, F v w -> F (a_sext A k v) (a_sext B k w);
  r_splice8 : forall i j v w v' w', F v w -> F v' w' -> F (a_splice8 A i j v v') (a_splice8 B i j w w');
  r_splice16 : forall i j v w v' w', F v w -> F v' w' -> F (a_splice16 A i j v v') (a_splice16 B i j w w') }.
Hypothesis H : respects.

Lemma r_blind_rotate sign a b rsh mask x y : Ps a b -> C x y ->
  ropt C (blind_rotate A sign a rsh mask x) (blind_rotate B sign b rsh mask y).
Proof.
  intros HA HX. unfold blind_rotate. apply rassert; [rewrite (r_length _ _ _ HA); reflexivity|]. constructor.
  apply r_fold; [|exact HX]. intros i u v HU. apply (r_crot H); [|exact HU]. apply r_nth; [exact HA|apply (r_pzero H)].
Qed.
Lemma r_swap p q i j l m : P p q -> Cs l m -> Cs (swap A p i j l) (swap B q i j m).
Proof.
  intros HP HL. unfold swap. destruct (r_nth_error C l m i HL) as [x y HX|]; [|exact HL].
  destruct (r_nth_error C l m j HL) as [x' y' HX'|]; [|exact HL].
  destruct (r_cswap H p q x y x' y' HP HX HX') as [S1 S2].
  destruct (a_cswap A p x x'), (a_cswap B q y y'). cbn in S1, S2. apply r_upd; [apply r_upd|]; assumption.
Qed.
Lemma r_swap_level p q t l m : P p q -> Cs l m -> Cs (swap_level A p t l) (swap_level B q t m).
Proof.
  intros HP HL. unfold swap_level. apply r_fold; [|exact HL]. intros i u v HU. rewrite (r_length _ _ _ HU).
  destruct (_ <? _)%nat; [apply r_swap|]; assumption.
Qed.
Lemma r_net a b rsh ls l m : Ps a b -> Cs l m -> Cs (net A a rsh ls l) (net B b rsh ls m).
Proof.
  intros HA HL. unfold net. apply r_fold; [|exact HL]. intros i u v HU. apply r_swap_level; [|exact HU].
  apply r_nth; [exact HA|apply (r_pzero H)].
Qed.
Lemma r_retrieval_statefull a b rsh mask l m : Ps a b -> Cs l m ->
  ropt Cs (retrieval_statefull A a rsh mask l) (retrieval_statefull B b rsh mask m).
Proof.
  intros HA HL. unfold retrieval_statefull. apply rassert; [rewrite (r_length _ _ _ HA); reflexivity|]. constructor. apply r_net; assumption.
Qed.
Lemma r_retrieval_statefull_rev a b rsh mask l m : Ps a b -> Cs l m ->
  ropt Cs (retrieval_statefull_rev A a rsh mask l) (retrieval_statefull_rev B b rsh mask m).
Proof.
  intros HA HL. unfold retrieval_statefull_rev. apply rassert; [rewrite (r_length _ _ _ HA); reflexivity|]. constructor. apply r_net; assumption.
Qed.
Lemma r_blind_retrieve l m a b rsh : Cs l m -> Ps a b -> ropt C (blind_retrieve A l a rsh) (blind_retrieve B m b rsh).
Proof.
  intros HL HA. unfold blind_retrieve. rewrite (r_length _ _ _ HA), (r_length _ _ _ HL). apply rassert; [reflexivity|]. constructor.
  apply (r_retrieve H); [apply r_firstn, r_skipn; exact HA|exact HL].
Qed.
Definition rmap := Forall2 (fun (a : nat * fu) (b : nat * fu') => fst a = fst b /\ F (snd a) (snd b)).
Lemma r_blind_select l m a b rsh mask : rmap l m -> Ps a b -> ropt F (blind_select A l a rsh mask) (blind_select B m b rsh mask).
Proof.
  intros HL HA. unfold blind_select. apply rassert; [rewrite (r_length _ _ _ HA); reflexivity|]. constructor.
  apply (r_select H); [exact HL|apply r_firstn, r_skipn; exact HA].
Qed.

Definition rba (a : bitarray ct) (b : bitarray ct') : Prop := Cs (ba_data a) (ba_data b) /\ ba_bits a = ba_bits b.
Definition rmem (m : memory ct) (n : memory ct') : Prop :=
  Forall2 rba (m_planes m) (m_planes n) /\ m_size m = m_size n /\ m_bits m = m_bits n /\ m_state m = m_state n.
Ltac rb := eapply rbind; [|let x := fresh "x" in let y := fresh "y" in let h := fresh "Hxy" in intros x y h].

Lemma r_ba_read_stateless a b p q o : rba a b -> Ps p q -> ropt C (ba_read_stateless A a p o) (ba_read_stateless B b q o).
Proof.
  intros [HD HB] HP. unfold ba_read_stateless. rewrite (r_log H), HB. rb; [apply r_blind_retrieve; assumption|]. apply r_blind_rotate; assumption.
Qed.
Lemma r_ba_gather a b p q o : rba a b -> Ps p q -> ropt Cs (ba_gather A a p o) (ba_gather B b q o).
Proof.
  intros [HD HB] HP. unfold ba_gather. rewrite (r_log H), HB. destruct (_ <? _); [apply r_retrieval_statefull; assumption|constructor; exact HD].
Qed.
Lemma r_ba_scatter k l m p q o : Cs l m -> Ps p q -> ropt Cs (ba_scatter A k l p o) (ba_scatter B k m q o).
Proof.
  intros HD HP. unfold ba_scatter. rewrite (r_log H). destruct (_ <? _); [apply r_retrieval_statefull_rev; assumption|constructor; exact HD].
Qed.
Definition rread (a : bitarray ct * ct) (b : bitarray ct' * ct') : Prop := rba (fst a) (fst b) /\ C (snd a) (snd b).
Lemma r_ba_read_statefull a b p q o : rba a b -> Ps p q -> ropt rread (ba_read_statefull A a p o) (ba_read_statefull B b q o).
Proof.
  intros HA HP. pose proof (proj2 HA) as HB. unfold ba_read_statefull. rewrite (r_log H), HB.
  rb; [apply r_ba_gather; assumption|]. rb; [apply r_nth_error; eassumption|]. rb; [apply r_blind_rotate; eassumption|].
  rb; [apply r_set_nth; eassumption|]. constructor. split; [split; [assumption|reflexivity]|assumption].
Qed.
Lemma r_ba_read_statefull_rev a b w z p q o : rba a b -> C w z -> Ps p q ->
  ropt rba (ba_read_statefull_rev A a w p o) (ba_read_statefull_rev B b z q o).
Proof.
  intros [HD HB] HW HP. unfold ba_read_statefull_rev. rewrite (r_log H), HB. rb; [apply r_nth_error; eassumption|].
  rb; [apply r_blind_rotate; [exact HP|]; apply (r_add H); [apply (r_sub H); [|apply (r_trace H)]|]; assumption|].
  rb; [apply r_set_nth; eassumption|]. rb; [apply r_ba_scatter; eassumption|]. constructor. split; [assumption|reflexivity].
Qed.
Lemma r_ba_write a b w z p q o : rba a b -> C w z -> Ps p q -> ropt rba (ba_write A a w p o) (ba_write B b z q o).
Proof.
  intros HA HW HP. pose proof (proj2 HA) as HB. unfold ba_write. rewrite (r_log H), HB. rb; [apply r_ba_gather; eassumption|].
  rb; [apply r_nth_error; eassumption|]. rb; [apply r_blind_rotate; eassumption|].
  rb; [apply r_blind_rotate; [exact HP|]; apply (r_add H); [apply (r_sub H); [|apply (r_trace H)]|]; assumption|].
  rb; [apply r_set_nth; eassumption|]. rb; [apply r_ba_scatter; eassumption|]. constructor. split; [assumption|reflexivity].
Qed.
Lemma r_ba_zero k a b : rba a b -> ropt rba (ba_zero A k a) (ba_zero B k b).
Proof.
  intros [HD HB]. unfold ba_zero, zero_idx_of, zero_poly_of. rewrite (r_log H), HB. rb; [apply r_nth_error; eassumption|].
  rb; [apply r_set_nth; [eassumption|]; apply (r_rot H), (r_sub H); [|apply (r_trace H)]; apply (r_rot H); assumption|].
  constructor. split; [assumption|reflexivity].
Qed.
Lemma r_region {X Y} (R : X -> Y -> Prop) t o g h c d :
  (forall q a b, R a b -> ropt R (g q a) (h q b)) -> Forall2 R c d -> ropt (Forall2 R) (region t o g c) (region t o h d).
Proof. intros G HC. unfold region. rewrite (r_length _ _ _ HC). apply rbind_eq. intros _. apply r_run_tasks; assumption. Qed.
Lemma r_nonempty m n : rmem m n -> nonempty m = nonempty n.
Proof. intros (HP & _). unfold nonempty. destruct HP as [|b b' ? ? [HD _]]; [reflexivity|]. destruct HD; reflexivity. Qed.
Definition rcell (a : bitarray ct * option ct) (b : bitarray ct' * option ct') : Prop := rba (fst a) (fst b) /\ ropt C (snd a) (snd b).
Lemma r_with_out m n : rmem m n -> Forall2 rcell (with_out m) (with_out n).
Proof. intros (HP & _). unfold with_out. eapply r_map; [|exact HP]. intros a b HA. split; [exact HA|constructor]. Qed.
Lemma r_all_written l m : Forall2 (ropt C) l m -> ropt Cs (all_written l) (all_written m).
Proof.
  induction 1; cbn [all_written]; [constructor; constructor|]. rb; [eassumption|]. rb; [eassumption|]. constructor. constructor; assumption.
Qed.
Lemma r_pack_out c d : Forall2 rcell c d -> ropt F (pack_out A c) (pack_out B d).
Proof.
  intros HC. unfold pack_out. rb; [apply r_all_written; eapply r_map; [|exact HC]; intros a b [_ HA]; exact HA|].
  constructor. apply (r_pack H). assumption.
Qed.
Definition rmr (a : memory ct * fu) (b : memory ct' * fu') : Prop := rmem (fst a) (fst b) /\ F (snd a) (snd b).
Lemma r_mem_read_stateless t o m n p q k : rmem m n -> Ps p q ->
  ropt rmr (mem_read_stateless A t o m p k) (mem_read_stateless B t o n q k).
Proof.
  intros HM HP. unfold mem_read_stateless. pose proof HM as (_ & S1 & S2 & S3). apply rassert; [apply r_nonempty; exact HM|].
  apply rassert; [rewrite S3; reflexivity|]. rb.
  - apply (r_region rcell); [|apply r_with_out; exact HM]. intros _ a b [HA _]. rb; [apply r_ba_read_stateless; eassumption|].
    constructor. split; [exact HA|constructor; assumption].
  - rb; [apply r_pack_out; eassumption|]. constructor. split; [|assumption]. split; [|auto]. cbn. eapply r_map; [|eassumption].
    intros a b [HA _]; exact HA.
Qed.
Lemma r_mem_read_statefull t o m n p q k : rmem m n -> Ps p q ->
  ropt rmr (mem_read_statefull A t o m p k) (mem_read_statefull B t o n q k).
Proof.
  intros HM HP. unfold mem_read_statefull. pose proof HM as (_ & S1 & S2 & S3). apply rassert; [apply r_nonempty; exact HM|].
  apply rassert; [rewrite S3; reflexivity|]. rb.
  - apply (r_region rcell); [|apply r_with_out; exact HM]. intros _ a b [HA _]. rb; [apply r_ba_read_statefull; eassumption|].
    destruct x, y, Hxy. constructor. split; [assumption|constructor; assumption].
  - rb; [apply r_pack_out; eassumption|]. constructor. split; [|assumption]. split; [|auto]. cbn. eapply r_map; [|eassumption].
    intros a b [HA _]; exact HA.
Qed.
Lemma r_mem_read_statefull_rev t o m n w z p q k : rmem m n -> F w z -> Ps p q ->
  ropt rmem (mem_read_statefull_rev A t o m w p k) (mem_read_statefull_rev B t o n z q k).
Proof.
  intros HM HW HP. unfold mem_read_statefull_rev. pose proof HM as (S0 & S1 & S2 & S3). apply rassert; [exact S3|].
  apply rassert; [apply r_nonempty; exact HM|]. rb.
  - apply (r_region rba); [|exact S0]. intros i a b HA. apply r_ba_read_statefull_rev; [exact HA|apply (r_bit H); exact HW|exact HP].
  - constructor. split; [exact Hxy|auto].
Qed.
Lemma r_mem_write t o m n w z p q k : rmem m n -> F w z -> Ps p q -> ropt rmem (mem_write A t o m w p k) (mem_write B t o n z q k).
Proof.
  intros HM HW HP. unfold mem_write. pose proof HM as (S0 & S1 & S2 & S3). apply rassert; [rewrite S3; reflexivity|].
  apply rassert; [apply r_nonempty; exact HM|]. rb.
  - apply (r_region rba); [|exact S0]. intros i a b HA. apply r_ba_write; [exact HA|apply (r_bit H); exact HW|exact HP].
  - constructor. split; [exact Hxy|auto].
Qed.
Lemma r_mem_zero t o m n k : rmem m n -> ropt rmem (mem_zero A t o m k) (mem_zero B t o n k).
Proof.
  intros HM. unfold mem_zero. pose proof HM as (S0 & S1 & S2 & S3). apply rassert; [apply r_nonempty; exact HM|]. rb.
  - apply (r_region rba); [|exact S0]. intros i a b HA. apply r_ba_zero; exact HA.
  - constructor. split; [exact Hxy|auto].
Qed.

Lemma r_prep_task v w sums q : Forall2 F v w -> ropt P (prep_task A v sums q) (prep_task B w sums q).
Proof.
  intros HV. unfold prep_task. apply rbind_eq. intros c. rb; [apply r_nth_error; exact HV|]. apply rbind_eq. intros s0.
  constructor. apply (r_boot H). assumption.
Qed.
Lemma r_scatter_bits counts l m : Ps l m -> Forall2 Ps (scatter_bits A counts l) (scatter_bits B counts m).
Proof.
  revert l m. induction counts as [|c r IH]; intros l m HL; cbn [scatter_bits]; constructor.
  - apply Forall2_app; [apply r_firstn; exact HL|apply r_repeat, (r_pzero H)].
  - apply IH, r_skipn, HL.
Qed.
Lemma r_prepare_multiple t o r r' v w counts : Forall2 Ps r r' -> Forall2 F v w ->
  ropt (Forall2 Ps) (prepare_multiple A t o r v counts) (prepare_multiple B t o r' w counts).
Proof.
  intros HR HV. unfold prepare_multiple. rewrite (r_length _ _ _ HR). apply rassert; [reflexivity|]. apply rassert; [reflexivity|].
  assert (HC : Ps (concat (map (fun rc => firstn (snd rc) (fst rc)) (combine r counts)))
                  (concat (map (fun rc => firstn (snd rc) (fst rc)) (combine r' counts)))).
  { apply r_concat. clear -HR. revert counts. induction HR; intros [|c cs]; cbn; constructor; auto. apply r_firstn; assumption. }
  cbv zeta. rewrite (r_length _ _ _ HC). apply rassert; [reflexivity|]. apply rbind_eq. intros _.
  rb; [apply (r_run_tasks P); [|exact HC]; intros q a b _; apply r_prep_task; exact HV|]. constructor. apply r_scatter_bits. assumption.
Qed.
Lemma r_prepare_low v w n : F v w -> ropt Ps (prepare_low A v n) (prepare_low B w n).
Proof.
  intros HV. unfold prepare_low, prepare_custom. apply rassert; [reflexivity|]. constructor. apply r_map_seq. intros i.
  destruct (i <? n)%nat; [apply (r_boot H); exact HV|apply (r_pzero H)].
Qed.
Lemma r_fresh n : Forall2 Ps (fresh A n) (fresh B n).
Proof. unfold fresh. apply r_repeat, r_repeat, (r_pzero H). Qed.

Lemma r_rd_eval o a a' b b' c c' d d' v w : Ps a a' -> Ps b b' -> Ps c c' -> Ps d d' -> F v w ->
  ropt F (rd_eval_enc A o a b c d v) (rd_eval_enc B o a' b' c' d' w).
Proof.
  intros. destruct o; cbn [rd_eval_enc]; constructor;
    first [apply (r_fzero H)|apply (r_circ2 H); assumption|assumption
          |apply (r_sext H); repeat apply (r_zero_byte H); assumption|repeat apply (r_zero_byte H); assumption].
Qed.
Lemma r_ram_eval o v v' w w' a a' : F v v' -> F w w' -> Ps a a' -> ropt F (ram_eval_enc A o v w a) (ram_eval_enc B o v' w' a').
Proof.
  intros HV HW HA. destruct o; cbn [ram_eval_enc]; try (constructor; assumption); apply r_blind_select; try exact HA; apply r_map_seq;
    intros i; (split; [reflexivity|]); [apply (r_splice8 H)|apply (r_splice16 H)]; assumption.
Qed.
Lemma r_eval_all {O} (id : O -> Z) ev ev' ops : (forall o, ropt F (ev o) (ev' o)) -> ropt rmap (eval_all id ev ops) (eval_all id ev' ops).
Proof.
  intros E. induction ops as [|o r IH]; cbn [eval_all]; [constructor; constructor|]. rb; [apply E|]. rb; [apply IH|].
  constructor. constructor; [split; [reflexivity|assumption]|assumption].
Qed.

Definition rparts (a : parts (pb := pb)) (b : parts (pb := pb')) : Prop :=
  Ps (p_rdu a) (p_rdu b) /\ Ps (p_mu a) (p_mu b) /\ Ps (p_pcu a) (p_pcu b) /\ Ps (p_imm a) (p_imm b) /\
  Ps (p_rs1 a) (p_rs1 b) /\ Ps (p_rs2 a) (p_rs2 b) /\ Ps (p_rd a) (p_rd b).
Definition rroms (a : eroms ct) (b : eroms ct') : Prop :=
  rmem (e_imm a) (e_imm b) /\ rmem (e_rs1 a) (e_rs1 b) /\ rmem (e_rs2 a) (e_rs2 b) /\ rmem (e_rd a) (e_rd b) /\
  rmem (e_rdu a) (e_rdu b) /\ rmem (e_mu a) (e_mu b) /\ rmem (e_pcu a) (e_pcu b).
(** equal public parts, related ciphertexts; nothing about the shadow VM *)
Definition revm (a : evm ct pb fu) (b : evm ct' pb' fu') : Prop :=
  v_cycle a = v_cycle b /\ v_rom_bits a = v_rom_bits b /\ v_rom_size a = v_rom_size b /\
  v_ram_bits a = v_ram_bits b /\ v_ram_size a = v_ram_size b /\
  rroms (v_rom a) (v_rom b) /\ rmem (v_regs a) (v_regs b) /\ rmem (v_ram a) (v_ram b) /\ F (v_pc a) (v_pc b) /\ Ps (v_pcp a) (v_pcp b).

Ltac inv_F2 := repeat match goal with
  | h : Forall2 _ (_ :: _) _ |- _ => inversion h; subst; clear h
  | h : Forall2 _ _ (_ :: _) |- _ => inversion h; subst; clear h
  | h : Forall2 _ [] _ |- _ => inversion h; subst; clear h
  | h : Forall2 _ _ [] |- _ => inversion h; subst; clear h end.
Lemma r_read_components e d d' r r' p p' : rroms r r' -> Ps p p' ->
  ropt (fun x y => rroms (fst (fst x)) (fst (fst y)) /\ rparts (snd x) (snd y))
       (read_components A None e d r p) (read_components B None e d' r' p').
Proof.
  intros (R1 & R2 & R3 & R4 & R5 & R6 & R7) HP. unfold read_components. cbv beta iota delta [shadow].
  do 7 (rb; [apply r_mem_read_stateless; eassumption|]; match goal with h : rmr ?x ?y |- _ => destruct x, y; destruct h; cbn [fst snd] in * end).
  apply rbind_eq. intros k1. apply rbind_eq. intros k2. rb; [apply r_prepare_multiple; [apply r_fresh|repeat (constructor; try assumption)]|].
  assert (L := r_length _ _ _ Hxy).
  do 8 (try (destruct x as [|? x], y as [|? y]; try discriminate L; try constructor)).
  inv_F2. cbn [fst snd]. unfold rroms, rparts. cbn [e_imm e_rs1 e_rs2 e_rd e_rdu e_mu e_pcu p_rdu p_mu p_pcu p_imm p_rs1 p_rs2 p_rd].
  repeat match goal with |- _ /\ _ => split end; assumption.
Qed.
Lemma r_read_regs e d d' r r' p p' : rmem r r' -> rparts p p' ->
  ropt (fun x y => rmem (fst (fst (fst (fst x)))) (fst (fst (fst (fst y)))) /\ F (snd (fst (fst x))) (snd (fst (fst y))) /\
                   Ps (snd (fst x)) (snd (fst y)) /\ Ps (snd x) (snd y))
       (read_regs A None e d r p) (read_regs B None e d' r' p').
Proof.
  intros R1 (P1 & P2 & P3 & P4 & P5 & P6 & P7). unfold read_regs. cbv beta iota delta [shadow].
  do 2 (rb; [apply r_mem_read_stateless; eassumption|]; match goal with h : rmr ?x ?y |- _ => destruct x, y; destruct h; cbn [fst snd] in * end).
  rb; [apply r_prepare_multiple; [apply r_fresh|repeat (constructor; try assumption)]|].
  assert (L := r_length _ _ _ Hxy).
  do 3 (try (destruct x as [|? x], y as [|? y]; try discriminate L; try constructor)).
  inv_F2. cbn [fst snd]. auto.
Qed.
Lemma r_read_ram e d d' r r' k p p' a a' : rmem r r' -> rparts p p' -> Ps a a' ->
  ropt (fun x y => rmem (fst (fst (fst x))) (fst (fst (fst y))) /\ F (snd (fst x)) (snd (fst y)) /\ Ps (snd x) (snd y))
       (read_ram_enc A None e d r k p a) (read_ram_enc B None e d' r' k p' a').
Proof.
  intros R1 (P1 & P2 & P3 & P4 & P5 & P6 & P7) HA. unfold read_ram_enc, ram_offset_enc. cbv beta iota delta [shadow]. cbv zeta.
  rb; [apply r_prepare_low, (r_circ2 H); assumption|]. rb; [apply r_mem_read_statefull; eassumption|].
  match goal with h : rmr ?x ?y |- _ => destruct x, y; destruct h; cbn [fst snd] in * end. constructor. cbn [fst snd]. auto.
Qed.
Lemma r_update_regs e ops d d' r r' p p' a a' b b' c c' v v' : rmem r r' -> rparts p p' -> Ps a a' -> Ps b b' -> Ps c c' -> F v v' ->
  ropt (fun x y => rmem (fst x) (fst y)) (update_regs A None e ops d r p a b c v) (update_regs B None e ops d' r' p' a' b' c' v').
Proof.
  intros R1 (P1 & P2 & P3 & P4 & P5 & P6 & P7) HA HB HC HV. unfold update_regs. cbv beta iota delta [shadow].
  rb; [apply r_eval_all; intros o; apply r_rd_eval; eassumption|]. apply rbind_eq. intros k.
  rb; [apply r_blind_select; eassumption|]. rb; [apply r_prepare_low; eassumption|]. cbv zeta.
  rb; [apply r_mem_write; [eassumption|apply (r_ident H); eassumption|eassumption]|].
  rb; [apply r_mem_zero; eassumption|]. constructor. cbn. assumption.
Qed.
Lemma r_update_ram e d d' r r' k p p' v v' w w' a a' : rmem r r' -> rparts p p' -> F v v' -> F w w' -> Ps a a' ->
  ropt (fun x y => rmem (fst x) (fst y)) (update_ram_enc A None e d r k p v w a) (update_ram_enc B None e d' r' k p' v' w' a').
Proof.
  intros R1 (P1 & P2 & P3 & P4 & P5 & P6 & P7) HV HW HA. unfold update_ram_enc. cbv beta iota delta [shadow].
  rb; [apply r_eval_all; intros o; apply r_ram_eval; eassumption|]. apply rbind_eq. intros n.
  rb; [apply r_blind_select; eassumption|]. rb; [apply r_prepare_low; eassumption|]. cbv zeta.
  rb; [apply r_mem_read_statefull_rev; [eassumption|apply (r_ident H); eassumption|eassumption]|]. constructor. cbn. assumption.
Qed.
Theorem r_ecycle e chk v w : revm v w -> ropt revm (ecycle A None e chk v) (ecycle B None e chk w).
Proof.
  intros (V1 & V2 & V3 & V4 & V5 & V6 & V7 & V8 & V9 & V10). unfold ecycle. rewrite V1, V2, V3, V4, V5.
  eapply rbind with (R := Ps); [destruct (_ =? _)%Z; [constructor; exact V10|apply r_prepare_low; exact V9]|]. intros pc pc' HPC.
  rb; [apply r_read_components; eassumption|]. destruct x as [[x1 ?] x2], y as [[y1 ?] y2], Hxy as [Q1 Q2]. cbn [fst snd] in *.
  rb; [apply r_read_regs; eassumption|]. destruct x as [[[[r1 ?] f1] a1] b1], y as [[[[r1' ?] f1'] a1'] b1'], Hxy as (Q3 & Q4 & Q5 & Q6). cbn [fst snd] in *.
  rb; [apply r_read_ram; eassumption|]. destruct x as [[[m1 ?] l1] c1], y as [[[m1' ?] l1'] c1'], Hxy as (Q7 & Q8 & Q9). cbn [fst snd] in *.
  rb; [apply r_update_regs; eassumption|]. destruct x as [r2 ?], y as [r2' ?]. cbn [fst snd] in *.
  rb; [apply r_update_ram; eassumption|]. destruct x as [m2 ?], y as [m2' ?]. cbn [fst snd] in *.
  unfold update_pc_stage. cbv beta iota delta [shadow]. cbv zeta. apply rassert; [reflexivity|]. constructor.
  unfold revm. cbn. destruct Q2 as (P1 & P2 & P3 & P4 & P5 & P6 & P7).
  repeat match goal with |- _ /\ _ => split end; try reflexivity; try assumption.
  apply (r_pcup H); assumption.
Qed.
Theorem r_ecycles chk es v w : revm v w -> ropt revm (ecycles A None chk es v) (ecycles B None chk es w).
Proof.
  revert v w. induction es as [|e r IH]; intros v w HV; cbn [ecycles]; [constructor; exact HV|].
  rb; [apply r_ecycle; exact HV|]. apply IH. assumption.
Qed.
End Rel.
