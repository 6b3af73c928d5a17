(** * The text of fhevm/src/memory.rs against the models of it (helper lemmas)

    TextMem.v is the text, run with the library of TextLib.v; EncMem.v is the
    model of what the operations compute, Scratch.v of the scratch space they
    use. *)
Require Import ZArith List Bool Lia Znat.
From Verif Require Import Rust RustIter RustLib TextLib TextLoop.
Require Verif.Word Verif.Glwe Verif.Par Verif.EncMem Verif.Scratch Verif.ListFacts Verif.ParFacts Verif.MemOps.
Require Verif.TextMem.
Module T := Verif.TextMem.
Module M := Verif.EncMem.
Module Sc := Verif.Scratch.
Module G := Verif.Glwe.
Import ListNotations.
Open Scope Z_scope.

(** ** lists *)
Lemma replace_map : forall {X Y} (f : X -> Y) l n x,
  replace (map f l) n (f x) = option_map (map f) (Verif.Word.set_nth l n x).
Proof.
  induction l as [|h t IH]; intros [|n] x; cbn; auto.
  rewrite IH. destruct (Verif.Word.set_nth t n x); reflexivity.
Qed.
Lemma index_map : forall {X Y} (f : X -> Y) l (n : nat),
  index (map f l) (Int (Z.of_nat n)) = option_map f (nth_error l n).
Proof. intros. unfold index, val. rewrite Nat2Z.id. apply nth_error_map. Qed.
Lemma index0 : forall {X} (l : list X), index l (lit 0) = nth_error l 0.
Proof. reflexivity. Qed.

Lemma upd_len : forall {X} (l : list X) n x, length (G.upd l n x) = length l.
Proof. induction l as [|h r IH]; intros [|n] x; cbn; auto. Qed.
Lemma swap_len {ct pb fu} (A : G.alg ct pb fu) b i j l : length (G.swap A b i j l) = length l.
Proof.
  unfold G.swap. destruct (nth_error l i) as [x|], (nth_error l j) as [y|]; auto.
  destruct (G.a_cswap A b x y) as [x' y']. now rewrite !upd_len.
Qed.
Lemma swap_level_len {ct pb fu} (A : G.alg ct pb fu) b t l : length (G.swap_level A b t l) = length l.
Proof.
  unfold G.swap_level. generalize (seq 0 t) as s. intro s. revert l.
  induction s as [|j s IH]; intro l; cbn -[Nat.ltb]; auto. rewrite IH.
  destruct (j + t <? length l)%nat; auto. apply swap_len.
Qed.
Lemma net_len {ct pb fu} (A : G.alg ct pb fu) addr rsh ls : forall l, length (G.net A addr rsh ls l) = length l.
Proof.
  induction ls as [|i ls IH]; intro l; auto. unfold G.net. cbn.
  change (length (G.net A addr rsh ls (G.swap_level A (nth (rsh + i) addr (G.a_pzero A)) (2 ^ i) l)) = length l).
  now rewrite IH, swap_level_len.
Qed.
Lemma relay_len : forall {GL ct} (l : GL) (old new : list ct), length new = length old ->
  relay (map (pair l) old) new = map (pair l) new.
Proof.
  unfold relay. induction old as [|x old IH]; intros [|y new] H; try discriminate; auto.
  cbn. f_equal. apply IH. cbn in H. lia.
Qed.
Lemma map_snd_pair : forall {X Y} (l : X) (xs : list Y), map snd (map (pair l) xs) = xs.
Proof. intros. rewrite map_map. apply map_id. Qed.

(** ** numbers *)
Definition b64 : Z := 18446744073709551616.
Lemma uadd : forall p a b, 0 <= a + b < b64 -> add p (@Int USize a) (Int b) = Some (Int (a + b)).
Proof.
  intros p a b H. unfold b64 in H. unfold add, checked, fits, val, least, largest.
  rewrite (proj2 (Z.leb_le _ _)), (proj2 (Z.leb_le _ _)) by lia. reflexivity.
Qed.
Lemma usub : forall p a b, 0 <= a - b < b64 -> sub p (@Int USize a) (Int b) = Some (Int (a - b)).
Proof.
  intros p a b H. unfold b64 in H. unfold sub, checked, fits, val, least, largest.
  rewrite (proj2 (Z.leb_le _ _)), (proj2 (Z.leb_le _ _)) by lia. reflexivity.
Qed.
Lemma umul : forall p a b, 0 <= a * b < b64 -> mul p (@Int USize a) (Int b) = Some (Int (a * b)).
Proof.
  intros p a b H. unfold b64 in H. unfold mul, checked, fits, val, least, largest.
  rewrite (proj2 (Z.leb_le _ _)), (proj2 (Z.leb_le _ _)) by lia. reflexivity.
Qed.
Lemma given_need : forall {X} s n (r : option X),
  given s n r = match Sc.need s n with Some _ => r | None => None end.
Proof. intros. unfold given, Sc.need. destruct (n <=? s); reflexivity. Qed.
Lemma given_take : forall {X} s n (r : Z -> option X),
  given s n (r (s - n)) = match Sc.take s n with Some a => r a | None => None end.
Proof. intros. unfold given, Sc.take. destruct (n <=? s); reflexivity. Qed.
Lemma nat_of_nat : forall {t} n, nat_of (@Int t (Z.of_nat n)) = n.
Proof. intros. unfold nat_of, val. apply Nat2Z.id. Qed.

Section Facts.
Context {ct pb fu GL KL SL Src : Type}.
Variable A : G.alg ct pb fu.
Variable sp : space GL KL SL.
Variable garbage : Z -> nat -> ct.
Variable garbage_i64 : Z -> nat -> int I64.
Variable gl_n : GL -> Z.
Variable enc : Z -> list Z -> ct.
Variable dec : Z -> ct -> list Z.
Variable next : Src -> Src.
Let L : library := lib A sp garbage garbage_i64 gl_n enc dec next.
Notation log := (G.log_n A).

Definition ba_of (l : GL) (b : M.bitarray ct) : T.BitArray L :=
  @T.mk_BitArray L (map (pair l) (M.ba_data b)) tt (Int (Z.of_nat (M.ba_bits b))).
Definition mem_of (l : GL) (m : M.memory ct) : T.Memory L :=
  @T.mk_Memory L (map (ba_of l) (M.m_planes m)) (Int (Z.of_nat (M.m_size m)))
    (Int (Z.of_nat (M.m_bits m))) (M.m_state m).

Lemma gt_large : forall k, gt (@Int USize (Z.of_nat k)) (Int (Z.of_nat log)) = (log <? k)%nat.
Proof.
  intro k. unfold gt, val. rewrite Z.gtb_ltb.
  destruct (Z.ltb_spec (Z.of_nat log) (Z.of_nat k)), (Nat.ltb_spec log k); auto; lia.
Qed.
Lemma large_eq : forall k, Sc.large (Z.of_nat log) (Z.of_nat k) = (log <? k)%nat.
Proof.
  intro k. unfold Sc.large.
  destruct (Z.ltb_spec (Z.of_nat log) (Z.of_nat k)), (Nat.ltb_spec log k); auto; lia.
Qed.
Lemma min_eq : forall k, RustIter.min (@Int USize (Z.of_nat log)) (Int (Z.of_nat k)) = Int (Z.of_nat (Nat.min log k)).
Proof. intro k. unfold RustIter.min, val. now rewrite Nat2Z.inj_min. Qed.

(** ** one plane *)
Section Plane.
Variables (p : profile) (l wl : GL) (sl : SL) (kl : KL) (addr : list pb) (off : nat).
Hypothesis OFF : Z.of_nat off + Z.of_nat log < b64.
Notation c := (costs_at sp l wl sl kl).

Lemma offset_eq : add p (@Int USize (Z.of_nat off)) (Int (Z.of_nat log)) = Some (Int (Z.of_nat (off + log))).
Proof. rewrite uadd by lia. now rewrite Nat2Z.inj_add. Qed.
Lemma rest_eq : forall k, Z.of_nat k < b64 -> (log < k)%nat ->
  sub p (@Int USize (Z.of_nat k)) (Int (Z.of_nat log)) = Some (Int (Z.of_nat (k - log))).
Proof. intros k B H. rewrite usub by lia. now rewrite Nat2Z.inj_sub by lia. Qed.

Lemma plane_stateless : forall b g size,
  T.BitArray_retrieve_stateless L p (ba_of l b) tt (l, g) (sl, addr) (Int (Z.of_nat off)) size =
  match Sc.retrieve_stateless c size with
  | Some _ =>
      match M.ba_read_stateless A b addr off with
      | Some r => Some (ba_of l b, (l, r))
      | None => None
      end
  | None => None
  end.
Proof.
  intros b g size. unfold T.BitArray_retrieve_stateless, L, ba_of. cbn -[Z.of_nat nat_of].
  rewrite offset_eq. rewrite !given_need, !map_snd_pair, !nat_of_nat.
  unfold Sc.retrieve_stateless, M.ba_read_stateless. cbn [Sc.k_select Sc.k_rotation costs_at].
  destruct (Sc.need size (s_select sp l sl)) as [[]|]; cbn -[Z.of_nat nat_of]; auto.
  destruct (G.blind_retrieve A (M.ba_data b) addr (off + log)) as [r|]; cbn -[Z.of_nat nat_of].
  - rewrite !given_need, min_eq, !nat_of_nat.
    destruct (Sc.need size (s_rotation sp l sl)) as [[]|]; cbn; auto.
    destruct (G.blind_rotate A false addr off (Init.Nat.min log (M.ba_bits b)) r); cbn; reflexivity.
  - destruct (Sc.need size (s_rotation sp l sl)) as [[]|]; auto.
Qed.

(** the swap network on a plane that has a polynomial *)
Lemma net_text : forall x xs k size, Z.of_nat k < b64 ->
  Module_glwe_blind_retrieval_statefull L tt (map (pair l) (x :: xs)) (sl, addr) (Int (Z.of_nat (off + log)))
    (Int (Z.of_nat (k - log))) size =
  match Sc.need size (s_retrieval sp l sl) with
  | Some _ => option_map (map (pair l)) (G.retrieval_statefull A addr (off + log) (k - log) (x :: xs))
  | None => None
  end.
Proof.
  intros x xs k size B. unfold L. cbn -[Z.of_nat nat_of relay G.retrieval_statefull].
  rewrite given_need, map_snd_pair, !nat_of_nat. destruct (Sc.need size (s_retrieval sp l sl)); auto.
  unfold G.retrieval_statefull. cbv zeta.
  destruct (off + log + (k - log) <=? length addr)%nat; auto. cbn [option_map].
  change ((l, x) :: map (pair l) xs) with (map (pair l) (x :: xs)).
  now rewrite relay_len by apply net_len.
Qed.
Lemma net_rev_text : forall x xs k size, Z.of_nat k < b64 ->
  Module_glwe_blind_retrieval_statefull_rev L tt (map (pair l) (x :: xs)) (sl, addr) (Int (Z.of_nat (off + log)))
    (Int (Z.of_nat (k - log))) size =
  match Sc.need size (s_retrieval sp l sl) with
  | Some _ => option_map (map (pair l)) (G.retrieval_statefull_rev A addr (off + log) (k - log) (x :: xs))
  | None => None
  end.
Proof.
  intros x xs k size B. unfold L. cbn -[Z.of_nat nat_of relay G.retrieval_statefull_rev].
  rewrite given_need, map_snd_pair, !nat_of_nat. destruct (Sc.need size (s_retrieval sp l sl)); auto.
  unfold G.retrieval_statefull_rev. cbv zeta.
  destruct (off + log + (k - log) <=? length addr)%nat; auto. cbn [option_map].
  change ((l, x) :: map (pair l) xs) with (map (pair l) (x :: xs)).
  now rewrite relay_len by apply net_len.
Qed.
Lemma rotate_text : forall x sign k size,
  Module_glwe_blind_rotation_inplace L tt (l, x) (sl, addr) sign (Int (Z.of_nat off))
    (RustIter.min (Module_log_n L tt) (Int (Z.of_nat k))) (lit 0) size =
  match Sc.need size (s_rotation sp l sl) with
  | Some _ => option_map (pair l) (G.blind_rotate A sign addr off (Nat.min log k) x)
  | None => None
  end.
Proof.
  intros x sign k size. unfold L. cbn -[Z.of_nat nat_of RustIter.min].
  rewrite given_need, min_eq, !nat_of_nat. reflexivity.
Qed.
(** the first entry of a plane, replaced *)
Lemma store0 : forall (y : GL * ct) ys z, store (y :: ys) (lit 0) z = Some (z :: ys).
Proof. reflexivity. Qed.

Lemma plane_statefull : forall b g size, Z.of_nat (M.ba_bits b) < b64 ->
  T.BitArray_retrieve_statefull L p (ba_of l b) tt (wl, g) (sl, addr) (Int (Z.of_nat off)) size =
  match Sc.retrieve_statefull c (Z.of_nat log) (Z.of_nat (M.ba_bits b)) size with
  | Some _ =>
      match M.ba_read_statefull A b addr off with
      | Some (b', r) => Some (ba_of l b', (wl, r))
      | None => None
      end
  | None => None
  end.
Proof.
  intros [[|x xs] k] g size B; cbn [M.ba_bits] in B.
  - (* no polynomial: both sides panic *)
    transitivity (@None (T.BitArray L * (GL * ct))).
    + unfold T.BitArray_retrieve_statefull, ba_of. cbn [T.BitArray_bit_size T.BitArray_data M.ba_bits M.ba_data map].
      match goal with |- match ?e with _ => _ end = _ => destruct e as [s|] eqn:E; [|reflexivity] end.
      assert (D : T.BitArray_data s = []).
      { revert E. destruct (gt _ _); [|intro E; injection E as <-; reflexivity].
        destruct (add _ _ _); [|discriminate]. destruct (sub _ _ _); [|discriminate].
        cbn. intro E; injection E as <-. reflexivity. }
      rewrite D. reflexivity.
    + destruct (Sc.retrieve_statefull _ _ _ _); auto.
      unfold M.ba_read_statefull, M.ba_gather. cbn [M.ba_bits M.ba_data].
      destruct (log <? k)%nat; auto. unfold G.retrieval_statefull. cbv zeta.
      destruct (off + log + (k - log) <=? length addr)%nat; auto.
      destruct (G.net A addr (off + log) (rev (seq 0 (k - log))) []) eqn:N; auto.
      apply (f_equal (@length _)) in N. rewrite net_len in N. discriminate.
  - unfold T.BitArray_retrieve_statefull, ba_of. cbn [T.BitArray_bit_size T.BitArray_data M.ba_bits M.ba_data].
    unfold Sc.retrieve_statefull, M.ba_read_statefull, M.ba_gather. cbn [M.ba_bits M.ba_data].
    rewrite large_eq. cbn [Sc.k_rotation Sc.k_retrieval costs_at].
    change (Module_log_n L tt) with (@Int USize (Z.of_nat log)). rewrite gt_large.
    assert (Tail : forall y ys,
      match index (map (pair l) (y :: ys)) (lit 0) with
      | Some t7 =>
          match Module_glwe_blind_rotation_inplace L tt t7 (sl, addr) false (Int (Z.of_nat off))
                  (RustIter.min (@Int USize (Z.of_nat log)) (Int (Z.of_nat k))) (lit 0) size with
          | Some t9 =>
              match store (map (pair l) (y :: ys)) (lit 0) t9 with
              | Some t10 =>
                  match index t10 (lit 0) with
                  | Some t11 =>
                      match Module_glwe_copy L tt (wl, g) t11 with
                      | Some t12 => Some (@T.mk_BitArray L t10 tt (Int (Z.of_nat k)), t12)
                      | None => None end
                  | None => None end
              | None => None end
          | None => None end
      | None => None end =
      match Sc.need size (s_rotation sp l sl) with
      | Some _ =>
          match G.blind_rotate A false addr off (Nat.min log k) y with
          | Some z => Some (ba_of l (M.BitArray (z :: ys) k), (wl, z))
          | None => None
          end
      | None => None
      end).
    { intros y ys. cbn [map]. rewrite index0. cbn [nth_error].
      change (@Int USize (Z.of_nat log)) with (Module_log_n L tt). rewrite rotate_text.
      destruct (Sc.need size (s_rotation sp l sl)); auto.
      destruct (G.blind_rotate A false addr off (Nat.min log k) y); reflexivity. }
    destruct (Nat.ltb_spec log k) as [HL|HL].
    + rewrite offset_eq, rest_eq by (auto; lia). rewrite net_text by auto.
      destruct (Sc.need size (s_retrieval sp l sl)); auto.
      destruct (G.retrieval_statefull A addr (off + log) (k - log) (x :: xs)) as [[|y ys]|] eqn:R;
        cbn [option_map].
      * destruct (Sc.need size (s_rotation sp l sl)); reflexivity.
      * cbn [T.set_BitArray_data T.BitArray_data T.BitArray_retriever T.BitArray_bit_size]. etransitivity; [exact (Tail y ys)|].
        destruct (Sc.need size (s_rotation sp l sl)); auto. cbn [nth_error].
        destruct (G.blind_rotate A false addr off (Nat.min log k) y); reflexivity.
      * destruct (Sc.need size (s_rotation sp l sl)); reflexivity.
    + etransitivity; [exact (Tail x xs)|].
      destruct (Sc.need size (s_rotation sp l sl)); auto. cbn [nth_error].
      destruct (G.blind_rotate A false addr off (Nat.min log k) x); reflexivity.
Qed.

Lemma plane_rev : forall b bit size, Z.of_nat (M.ba_bits b) < b64 ->
  T.BitArray_retrieve_statefull_rev L p (ba_of l b) tt (wl, bit) (sl, addr) kl (Int (Z.of_nat off)) size =
  match Sc.retrieve_statefull_rev c (Z.of_nat log) (Z.of_nat (M.ba_bits b)) size with
  | Some _ =>
      match M.ba_read_statefull_rev A b bit addr off with
      | Some b' => Some (ba_of l b')
      | None => None
      end
  | None => None
  end.
Proof.
  intros [[|x xs] k] bit size B; cbn [M.ba_bits] in B.
  - transitivity (@None (T.BitArray L)); [reflexivity|].
    destruct (Sc.retrieve_statefull_rev _ _ _ _); auto.
  - unfold T.BitArray_retrieve_statefull_rev, ba_of. cbn [T.BitArray_bit_size T.BitArray_data M.ba_bits M.ba_data].
    unfold Sc.retrieve_statefull_rev, M.ba_read_statefull_rev, M.ba_scatter. cbn [M.ba_bits M.ba_data].
    rewrite large_eq. cbn [Sc.k_glwe Sc.k_trace Sc.k_normalize Sc.k_rotation Sc.k_retrieval costs_at].
    cbn [map]. rewrite !index0. cbn [nth_error].
    change (GLWE_glwe_layout L (l, x)) with l.
    change (Scratch_take_glwe L size l) with (given size (s_glwe sp l) (Some ((l, garbage size 0), size - s_glwe sp l))).
    rewrite (given_take size (s_glwe sp l) (fun a => Some ((l, garbage size 0), a))).
    destruct (Sc.take size (s_glwe sp l)) as [a|]; auto.
    change (Module_glwe_trace L tt (l, garbage size 0) (lit 0) (l, x) kl a)
      with (given a (s_trace sp l l kl) (Some (l, G.a_trace A x))).
    rewrite given_need. destruct (Sc.need a (s_trace sp l l kl)) as [[]|]; auto.
    cbn [T.BitArray_data T.set_BitArray_data T.BitArray_retriever T.BitArray_bit_size].
    change (Module_glwe_sub_inplace L tt (l, x) (l, G.a_trace A x)) with (Some (l, G.a_sub A x (G.a_trace A x))).
    cbv iota beta. rewrite !store0. cbv iota beta.
    cbn [T.BitArray_data T.set_BitArray_data T.BitArray_retriever T.BitArray_bit_size].
    rewrite !index0. cbn [nth_error].
    change (Module_glwe_add_inplace L tt (l, G.a_sub A x (G.a_trace A x)) (wl, bit))
      with (Some (l, G.a_add A (G.a_sub A x (G.a_trace A x)) bit)).
    cbv iota beta. rewrite !store0. cbv iota beta.
    set (y := G.a_add A (G.a_sub A x (G.a_trace A x)) bit).
    cbn [T.BitArray_data T.set_BitArray_data T.BitArray_retriever T.BitArray_bit_size].
    rewrite !index0. cbn [nth_error].
    change (Module_glwe_normalize_inplace L tt (l, y) size) with (given size (s_normalize sp) (Some (l, y))).
    rewrite given_need. destruct (Sc.need size (s_normalize sp)) as [[]|]; auto.
    rewrite !store0. cbv iota beta.
    cbn [T.BitArray_data T.set_BitArray_data T.BitArray_retriever T.BitArray_bit_size].
    rewrite !index0. cbn [nth_error].
    etransitivity.
    { rewrite rotate_text. reflexivity. }
    destruct (Sc.need size (s_rotation sp l sl)) as [[]|]; auto.
    destruct (G.blind_rotate A true addr off (Nat.min log k) y) as [z|]; cbn [option_map].
    2: { destruct (log <? k)%nat; auto. destruct (Sc.need _ _); auto. }
    rewrite !store0. cbv iota beta. cbn [Verif.Word.set_nth].
    cbn [T.BitArray_data T.set_BitArray_data T.BitArray_retriever T.BitArray_bit_size].
    change (Module_log_n L tt) with (@Int USize (Z.of_nat log)). rewrite gt_large.
    destruct (Nat.ltb_spec log k) as [HL|HL].
    + rewrite offset_eq, rest_eq by (auto; lia).
      change ((l, z) :: map (pair l) xs) with (map (pair l) (z :: xs)). rewrite net_rev_text by auto.
      destruct (Sc.need size (s_retrieval sp l sl)); auto.
      destruct (G.retrieval_statefull_rev A addr (off + log) (k - log) (z :: xs)); reflexivity.
    + reflexivity.
Qed.

(** a write ends like a reverse read *)
Lemma write_split : forall self bit size,
  T.BitArray_write L p self tt bit (sl, addr) kl (Int (Z.of_nat off)) size =
  match (if gt (T.BitArray_bit_size self) (Module_log_n L tt) then
           match add p (Int (Z.of_nat off)) (Module_log_n L tt) with
           | Some t3 =>
               match sub p (T.BitArray_bit_size self) (Module_log_n L tt) with
               | Some t5 =>
                   match Module_glwe_blind_retrieval_statefull L tt (T.BitArray_data self) (sl, addr) t3 t5 size with
                   | Some t6 => Some (T.set_BitArray_data self t6)
                   | None => None end
               | None => None end
           | None => None end
         else Some self) with
  | Some self =>
      match index (T.BitArray_data self) (lit 0) with
      | Some t7 =>
          match Module_glwe_blind_rotation_inplace L tt t7 (sl, addr) false (Int (Z.of_nat off))
                  (RustIter.min (Module_log_n L tt) (T.BitArray_bit_size self)) (lit 0) size with
          | Some t9 =>
              match store (T.BitArray_data self) (lit 0) t9 with
              | Some t10 =>
                  T.BitArray_retrieve_statefull_rev L p (T.set_BitArray_data self t10) tt bit
                    (sl, addr) kl (Int (Z.of_nat off)) size
              | None => None end
          | None => None end
      | None => None end
  | None => None
  end.
Proof. reflexivity. Qed.

Lemma plane_write : forall b bit size, Z.of_nat (M.ba_bits b) < b64 ->
  T.BitArray_write L p (ba_of l b) tt (wl, bit) (sl, addr) kl (Int (Z.of_nat off)) size =
  match Sc.write_plane c (Z.of_nat log) (Z.of_nat (M.ba_bits b)) size with
  | Some _ =>
      match M.ba_write A b bit addr off with
      | Some b' => Some (ba_of l b')
      | None => None
      end
  | None => None
  end.
Proof.
  intros [[|x xs] k] bit size B; cbn [M.ba_bits] in B.
  - transitivity (@None (T.BitArray L)).
    + unfold T.BitArray_write, ba_of. cbn [T.BitArray_bit_size T.BitArray_data M.ba_bits M.ba_data map].
      match goal with |- match ?e with _ => _ end = _ => destruct e as [s|] eqn:E; [|reflexivity] end.
      assert (D : T.BitArray_data s = []).
      { revert E. destruct (gt _ _); [|intro E; injection E as <-; reflexivity].
        destruct (add _ _ _); [|discriminate]. destruct (sub _ _ _); [|discriminate].
        cbn. intro E; injection E as <-. reflexivity. }
      rewrite D. reflexivity.
    + destruct (Sc.write_plane _ _ _ _); auto.
      unfold M.ba_write, M.ba_gather. cbn [M.ba_bits M.ba_data].
      destruct (log <? k)%nat; auto. unfold G.retrieval_statefull. cbv zeta.
      destruct (off + log + (k - log) <=? length addr)%nat; auto.
      destruct (G.net A addr (off + log) (rev (seq 0 (k - log))) []) eqn:N; auto.
      apply (f_equal (@length _)) in N. rewrite net_len in N. discriminate.
  - unfold ba_of at 1. cbn [M.ba_bits M.ba_data].
    assert (Tail : forall y ys,
      match index (map (pair l) (y :: ys)) (lit 0) with
      | Some t7 =>
          match Module_glwe_blind_rotation_inplace L tt t7 (sl, addr) false (Int (Z.of_nat off))
                  (RustIter.min (Module_log_n L tt) (Int (Z.of_nat k))) (lit 0) size with
          | Some t9 =>
              match store (map (pair l) (y :: ys)) (lit 0) t9 with
              | Some t10 =>
                  T.BitArray_retrieve_statefull_rev L p (@T.mk_BitArray L t10 tt (Int (Z.of_nat k))) tt (wl, bit)
                    (sl, addr) kl (Int (Z.of_nat off)) size
              | None => None end
          | None => None end
      | None => None end =
      match Sc.need size (s_rotation sp l sl) with
      | Some _ =>
          match Sc.retrieve_statefull_rev c (Z.of_nat log) (Z.of_nat k) size with
          | Some _ =>
              match G.blind_rotate A false addr off (Nat.min log k) y with
              | Some z =>
                  match M.ba_read_statefull_rev A (M.BitArray (z :: ys) k) bit addr off with
                  | Some b' => Some (ba_of l b')
                  | None => None end
              | None => None end
          | None => None end
      | None => None end).
    { intros y ys. cbn [map]. rewrite index0. cbn [nth_error]. rewrite rotate_text.
      destruct (Sc.need size (s_rotation sp l sl)); auto.
      destruct (G.blind_rotate A false addr off (Nat.min log k) y) as [z|]; cbn [option_map].
      - rewrite store0. pose proof (plane_rev (M.BitArray (z :: ys) k) bit size B) as R. exact R.
      - destruct (Sc.retrieve_statefull_rev _ _ _ _); reflexivity. }
    assert (Model : forall d, match d with
        | Some (y :: ys) =>
          match G.blind_rotate A false addr off (Nat.min log k) y with
              | Some z =>
                  match M.ba_read_statefull_rev A (M.BitArray (z :: ys) k) bit addr off with
                  | Some b' => Some (ba_of l b')
                  | None => None end
              | None => None end
        | _ => None end =
      match (match d with Some d => match nth_error d 0 with Some d0 =>
           match G.blind_rotate A false addr off (Nat.min log k) d0 with
           | Some d1 =>
             match G.blind_rotate A true addr off (Nat.min log k) (G.a_add A (G.a_sub A d1 (G.a_trace A d1)) bit) with
             | Some d2 => match Verif.Word.set_nth d 0 d2 with Some d3 =>
                 match M.ba_scatter A k d3 addr off with Some d' => Some (M.BitArray d' k) | None => None end
                 | None => None end | None => None end
           | None => None end | None => None end | None => None end) with
      | Some b' => Some (ba_of l b') | None => None end).
    { intros [[|y ys]|]; auto. cbn [nth_error].
      destruct (G.blind_rotate A false addr off (Nat.min log k) y) as [z|]; auto. }
    unfold Sc.write_plane, M.ba_write, M.ba_gather. cbn [M.ba_bits M.ba_data].
    rewrite write_split. cbn [T.BitArray_bit_size T.BitArray_data].
    rewrite large_eq. cbn [Sc.k_glwe Sc.k_trace Sc.k_normalize Sc.k_rotation Sc.k_retrieval costs_at].
    change (Module_log_n L tt) with (@Int USize (Z.of_nat log)). rewrite gt_large.
    unfold Sc.retrieve_statefull_rev in Tail. rewrite large_eq in Tail.
    cbn [Sc.k_glwe Sc.k_trace Sc.k_normalize Sc.k_rotation Sc.k_retrieval costs_at] in Tail.
    destruct (Nat.ltb_spec log k) as [HL|HL].
    + rewrite offset_eq, rest_eq by (auto; lia). rewrite net_text by auto.
      destruct (Sc.need size (s_retrieval sp l sl)); auto.
      rewrite <- (Model (G.retrieval_statefull A addr (off + log) (k - log) (x :: xs))).
      destruct (G.retrieval_statefull A addr (off + log) (k - log) (x :: xs)) as [[|y ys]|] eqn:R;
        cbn [option_map].
      * match goal with |- _ = match ?e with _ => _ end => destruct e; reflexivity end.
      * etransitivity; [exact (Tail y ys)|].
        destruct (Sc.need size (s_rotation sp l sl)); auto.
      * match goal with |- _ = match ?e with _ => _ end => destruct e; reflexivity end.
    + rewrite <- (Model (Some (x :: xs))). etransitivity; [exact (Tail x xs)|].
      destruct (Sc.need size (s_rotation sp l sl)); auto.
Qed.
End Plane.

(** ** whole memories *)
Definition mapo {X Y} (f : X -> Y) (o : option X) : option Y := match o with Some x => Some (f x) | None => None end.

Lemma div_ceil_text : forall t n, (0 < t)%nat ->
  div_ceil (@Int USize (Z.of_nat n)) (Int (Z.of_nat t)) = Some (Int (Z.of_nat (Par.chunk_size t n))).
Proof.
  intros t n H. unfold div_ceil, val. rewrite (proj2 (Z.eqb_neq _ _)) by lia. do 2 f_equal.
  unfold Par.chunk_size. rewrite Nat2Z.inj_div. replace (Z.of_nat (n + t - 1)) with (Z.of_nat n + Z.of_nat t - 1) by lia.
  set (a := Z.of_nat n). set (b := Z.of_nat t). assert (0 < b) by lia. assert (0 <= a) by lia. clearbody a b.
  destruct (Z.eqb_spec (a mod b) 0) as [E|E].
  - apply (Z.div_unique_pos _ _ _ (b - 1)); [lia|].
    pose proof (Z.div_mod a b ltac:(lia)). lia.
  - pose proof (Z.mod_pos_bound a b ltac:(lia)). apply (Z.div_unique_pos _ _ _ (a mod b - 1)); [lia|].
    pose proof (Z.div_mod a b ltac:(lia)). lia.
Qed.
Lemma ge_need : forall s n, ge (@Int USize s) (Int n) = match Sc.need s n with Some _ => true | None => false end.
Proof. intros. unfold ge, val, Sc.need. rewrite Z.geb_leb. destruct (n <=? s); reflexivity. Qed.

Section Whole.
Variables (p : profile) (l wl : GL) (sl : SL) (kl : KL) (m : M.memory ct) (threads : nat) (order : list Par.task).
Hypothesis H32 : length (M.m_planes m) = 32%nat.
Hypothesis BITS : Forall (fun b => M.ba_bits b = M.m_bits m) (M.m_planes m).
Hypothesis BITS64 : Z.of_nat (M.m_bits m) < b64.
Hypothesis ORD : threads <> 0%nat -> M.par_order threads 32 order.
Notation c := (costs_at sp l wl sl kl).
Notation cs := (Par.chunk_size threads 32).

Lemma planes_ne : M.m_planes m <> [].
Proof. intro E. rewrite E in H32. discriminate. Qed.
Lemma cs_pos : (0 < threads)%nat -> (0 < cs)%nat.
Proof. intro. apply ParFacts.chunk_size_pos; lia. Qed.
Lemma cs_covers : (0 < threads)%nat -> (32 <= cs * threads)%nat.
Proof. intro. now apply ParFacts.chunk_size_covers. Qed.

(** a loop over the chunks of the planes, one thread each *)
Lemma region_plain : forall (body : Z * list (T.BitArray L) -> unit -> option ((Z * list (T.BitArray L)) * unit)) size g,
  (0 < threads)%nat ->
  (forall j ch, nth_error (pieces 32 cs (M.m_planes m)) j = Some ch ->
     body (size, map (ba_of l) ch) tt =
     match ParFacts.mapi_o g (cs * j) ch with Some ys => Some ((size, map (ba_of l) ys), tt) | None => None end) ->
  match chunks (map (ba_of l) (M.m_planes m)) (Int (Z.of_nat cs)) with
  | Some t17 =>
      match for_mut (combine (repeat size threads) t17) body tt with
      | Some (t33, _) => Some (write_back (map (ba_of l) (M.m_planes m)) (concat (map (fun x => snd x) t33)))
      | None => None
      end
  | None => None
  end =
  match M.region threads order g (M.m_planes m) with
  | Some bs => Some (map (ba_of l) bs)
  | None => None
  end.
Proof.
  intros body size g HT HB. rewrite MemOps.region_eq by (rewrite H32; apply ORD; lia).
  unfold chunks, val. rewrite (proj2 (Z.eqb_neq _ _)) by (pose proof (cs_pos HT); lia).
  rewrite map_length, H32, Nat2Z.id, pieces_map.
  rewrite combine_repeat by (rewrite map_length; apply pieces_count; rewrite H32; apply cs_covers; auto).
  rewrite map_map. rewrite <- (imap_const _ _ (fun x => (size, map (ba_of l) x)) _ 0).
  rewrite (for_mut_pieces _ _ (fun _ ch => (size, map (ba_of l) ch)) body g cs (cs_pos HT) 32 (M.m_planes m) 0).
  2: { rewrite H32; lia. }
  2: { intros j ch Hj. apply HB; auto. }
  rewrite Nat.mul_0_r.
  destruct (ParFacts.mapi_o g 0 (M.m_planes m)) as [ys|] eqn:E; [|reflexivity].
  pose proof (mapi_o_len _ _ _ _ _ _ E) as LY. rewrite H32 in LY.
  rewrite imap_const. rewrite map_map. cbn [snd].
  rewrite <- pieces_map, concat_pieces by (try apply cs_pos; auto; rewrite map_length; lia).
  rewrite write_back_all by (rewrite !map_length; congruence). reflexivity.
Qed.
Lemma region_enum : forall (body : int USize * (Z * list (T.BitArray L)) -> unit ->
      option ((int USize * (Z * list (T.BitArray L))) * unit)) size g,
  (0 < threads)%nat ->
  (forall j ch, nth_error (pieces 32 cs (M.m_planes m)) j = Some ch ->
     body (Int (Z.of_nat j), (size, map (ba_of l) ch)) tt =
     match ParFacts.mapi_o g (cs * j) ch with
     | Some ys => Some ((Int (Z.of_nat j), (size, map (ba_of l) ys)), tt)
     | None => None end) ->
  match chunks (map (ba_of l) (M.m_planes m)) (Int (Z.of_nat cs)) with
  | Some t11 =>
      match for_mut (enumerate (combine (repeat size threads) t11)) body tt with
      | Some (t18, _) => Some (write_back (map (ba_of l) (M.m_planes m)) (concat (map (fun x => snd (snd x)) t18)))
      | None => None
      end
  | None => None
  end =
  match M.region threads order g (M.m_planes m) with
  | Some bs => Some (map (ba_of l) bs)
  | None => None
  end.
Proof.
  intros body size g HT HB. rewrite MemOps.region_eq by (rewrite H32; apply ORD; lia).
  unfold chunks, val. rewrite (proj2 (Z.eqb_neq _ _)) by (pose proof (cs_pos HT); lia).
  rewrite map_length, H32, Nat2Z.id, pieces_map.
  rewrite combine_repeat by (rewrite map_length; apply pieces_count; rewrite H32; apply cs_covers; auto).
  rewrite enumerate_imap, map_map, imap_map.
  rewrite (for_mut_pieces _ _ (fun i ch => (@Int USize (Z.of_nat i), (size, map (ba_of l) ch))) body g cs (cs_pos HT) 32 (M.m_planes m) 0).
  2: { rewrite H32; lia. }
  2: { intros j ch Hj. cbn [Nat.add]. apply HB; auto. }
  rewrite Nat.mul_0_r.
  destruct (ParFacts.mapi_o g 0 (M.m_planes m)) as [ys|] eqn:E; [|reflexivity].
  pose proof (mapi_o_len _ _ _ _ _ _ E) as LY. rewrite H32 in LY.
  rewrite map_imap. cbn [snd]. rewrite imap_const.
  rewrite <- pieces_map, concat_pieces by (try apply cs_pos; auto; rewrite map_length; lia).
  rewrite write_back_all by (rewrite !map_length; congruence). reflexivity.
Qed.

Lemma mapi_o_fst : forall X Y Z (f : X -> option Z) (xs : list X) (ys : list Y) k k', length xs = length ys ->
  ParFacts.mapi_o (fun _ x => f (fst x)) k (combine xs ys) = ParFacts.mapi_o (fun _ x => f x) k' xs.
Proof.
  intros X Y Z f xs. induction xs as [|x xs IH]; intros [|y ys] k k' H; try discriminate; auto.
  cbn. destruct (f x); auto. rewrite (IH ys (Datatypes.S k) (Datatypes.S k')) by (cbn in H; lia). reflexivity.
Qed.
Lemma map_fst_comb : forall X Y (xs : list X) (ys : list Y), length xs = length ys -> map fst (combine xs ys) = xs.
Proof. induction xs as [|x xs IH]; intros [|y ys] H; try discriminate; auto. cbn. f_equal. apply IH. cbn in H; lia. Qed.
Lemma map_snd_comb : forall X Y (xs : list X) (ys : list Y), length xs = length ys -> map snd (combine xs ys) = ys.
Proof. induction xs as [|x xs IH]; intros [|y ys] H; try discriminate; auto. cbn. f_equal. apply IH. cbn in H; lia. Qed.
Lemma combine_maps : forall X Y U V (f : X -> U) (h : Y -> V) xs,
  combine (map f (map fst xs)) (map h (map snd xs)) = map (fun x : X * Y => (f (fst x), h (snd x))) xs.
Proof. induction xs as [|x xs IH]; cbn; auto. now rewrite IH. Qed.

Lemma region_pair : forall (body : (Z * list (T.BitArray L)) * list (GL * ct) -> unit ->
      option (((Z * list (T.BitArray L)) * list (GL * ct)) * unit)) size (f : M.bitarray ct -> option (M.bitarray ct * ct)) gs,
  (0 < threads)%nat -> length gs = 32%nat ->
  (forall j ch, nth_error (pieces 32 cs (combine (M.m_planes m) gs)) j = Some ch ->
     body ((size, map (ba_of l) (map fst ch)), map (pair wl) (map snd ch)) tt =
     match ParFacts.mapi_o (fun _ x => f (fst x)) (cs * j) ch with
     | Some ys => Some (((size, map (ba_of l) (map fst ys)), map (pair wl) (map snd ys)), tt)
     | None => None end) ->
  match chunks (map (ba_of l) (M.m_planes m)) (Int (Z.of_nat cs)) with
  | Some t9 =>
      match chunks (map (pair wl) gs) (Int (Z.of_nat cs)) with
      | Some t10 =>
          match for_mut (combine (combine (repeat size threads) t9) t10) body tt with
          | Some (t14, _) =>
              Some (write_back (map (ba_of l) (M.m_planes m)) (concat (map (fun x => snd (fst x)) t14)),
                    write_back (map (pair wl) gs) (concat (map (fun x => snd x) t14)))
          | None => None
          end
      | None => None
      end
  | None => None
  end =
  match ParFacts.mapi_o (fun _ b => f b) 0 (M.m_planes m) with
  | Some ys => Some (map (ba_of l) (map fst ys), map (pair wl) (map snd ys))
  | None => None
  end.
Proof.
  intros body size f gs HT HG HB.
  unfold chunks, val. rewrite (proj2 (Z.eqb_neq _ _)) by (pose proof (cs_pos HT); lia).
  rewrite !map_length, H32, HG, !Nat2Z.id, !pieces_map.
  set (cells := combine (M.m_planes m) gs) in *.
  assert (LC : length cells = 32%nat) by (unfold cells; rewrite combine_length; lia).
  assert (C1 : map fst cells = M.m_planes m) by (apply map_fst_comb; lia).
  assert (C2 : map snd cells = gs) by (apply map_snd_comb; lia).
  rewrite <- (mapi_o_fst _ _ _ f (M.m_planes m) gs 0 0) by lia. fold cells.
  rewrite <- C1, <- C2. rewrite !pieces_map.
  rewrite combine_repeat by (rewrite !map_length; apply pieces_count; rewrite LC; apply cs_covers; auto).
  rewrite map_map.
  assert (X : forall xs : list (list (M.bitarray ct * ct)), combine (map (fun x => (size, map (ba_of l) x)) (map (map fst) xs)) (map (map (pair wl)) (map (map snd) xs))
     = map (fun x => ((size, map (ba_of l) (map fst x)), map (pair wl) (map snd x))) xs).
  { induction xs as [|x xs IH]; cbn; auto. now rewrite IH. }
  rewrite X. rewrite <- (imap_const _ _ (fun x => ((size, map (ba_of l) (map fst x)), map (pair wl) (map snd x))) _ 0).
  rewrite (for_mut_pieces _ _ (fun _ x => ((size, map (ba_of l) (map fst x)), map (pair wl) (map snd x))) body
    (fun _ x => f (fst x)) cs (cs_pos HT) 32 cells 0).
  2: lia.
  2: { intros j ch Hj. apply HB; auto. }
  rewrite Nat.mul_0_r.
  destruct (ParFacts.mapi_o (fun _ x => f (fst x)) 0 cells) as [ys|] eqn:E; [|reflexivity].
  pose proof (mapi_o_len _ _ _ _ _ _ E) as LY. rewrite LC in LY.
  rewrite imap_const, !map_map. cbn [fst snd].
  rewrite <- !(map_map (map fst) (map (ba_of l))), <- !(map_map (map snd) (map (pair wl))).
  rewrite <- !pieces_map, !concat_pieces by (try apply cs_pos; auto; rewrite !map_length; lia).
  rewrite !write_back_all by (rewrite !map_length; congruence). rewrite !map_map. reflexivity.
Qed.

(** the model's cells with their outputs *)
Lemma mapi_o_out : forall (f : M.bitarray ct -> option (M.bitarray ct * ct)) bs k,
  ParFacts.mapi_o (fun (_ : nat) (x : M.bitarray ct * option ct) =>
      match f (fst x) with Some (b, r) => Some (b, Some r) | None => None end) k
    (map (fun b => (b, None)) bs) =
  match ParFacts.mapi_o (fun (_ : nat) b => f b) k bs with
  | Some ys => Some (map (fun y => (fst y, Some (snd y))) ys)
  | None => None
  end.
Proof.
  intros f bs. induction bs as [|b bs IH]; intro k; cbn; auto.
  destruct (f b) as [[b' r]|]; auto. rewrite IH.
  destruct (ParFacts.mapi_o (fun _ b => f b) (Datatypes.S k) bs); reflexivity.
Qed.
Lemma mapi_o_same : forall X Y (g g' : nat -> X -> option Y) xs k, (forall i x, g i x = g' i x) ->
  ParFacts.mapi_o g k xs = ParFacts.mapi_o g' k xs.
Proof. intros X Y g g' xs. induction xs as [|x xs IH]; intros k H; cbn; auto. rewrite H, (IH _ H). reflexivity. Qed.
Lemma with_out_eq : forall X g (f : M.bitarray ct -> option (M.bitarray ct * ct)) (k : list (M.bitarray ct) -> fu -> X),
  (0 < threads)%nat ->
  (forall i x, g i x = match f (fst x) with Some (b, r) => Some (b, Some r) | None => None end) ->
  match M.region threads order g (M.with_out m) with
  | Some cells => match M.pack_out A cells with Some res => Some (k (map fst cells) res) | None => None end
  | None => None
  end =
  match ParFacts.mapi_o (fun _ b => f b) 0 (M.m_planes m) with
  | Some ys => Some (k (map fst ys) (G.a_pack A (map snd ys)))
  | None => None
  end.
Proof.
  intros X g f k HT HG. rewrite MemOps.region_eq by (unfold M.with_out; rewrite map_length, H32; apply ORD; lia).
  rewrite (mapi_o_same _ _ _ _ _ _ HG).
  unfold M.with_out. rewrite mapi_o_out.
  destruct (ParFacts.mapi_o (fun _ b => f b) 0 (M.m_planes m)) as [ys|]; auto.
  unfold M.pack_out. rewrite !map_map. cbn [fst snd].
  rewrite <- (map_map snd Some), MemOps.all_written_map. reflexivity.
Qed.

Lemma first_plane : exists b0, nth_error (M.m_planes m) 0 = Some b0 /\
  M.nonempty m = match M.ba_data b0 with [] => false | _ => true end.
Proof.
  pose proof planes_ne as PN. unfold M.nonempty. destruct (M.m_planes m) as [|b0 bs]; [congruence|].
  exists b0. auto.
Qed.
Lemma len_planes : len (map (ba_of l) (M.m_planes m)) = Int (Z.of_nat 32).
Proof. unfold len. now rewrite map_length, H32. Qed.
Lemma piece_in : forall X (xs : list X) j ch i x, (0 < threads)%nat ->
  nth_error (pieces 32 cs xs) j = Some ch -> nth_error ch i = Some x ->
  nth_error xs (cs * j + i) = Some x.
Proof. intros X xs j ch i x HT H1 H2. eapply pieces_nth; eauto. now apply cs_pos. Qed.
Lemma bits_at : forall i b, nth_error (M.m_planes m) i = Some b -> M.ba_bits b = M.m_bits m.
Proof. intros i b H. rewrite Forall_forall in BITS. apply BITS. eapply nth_error_In; eauto. Qed.

Lemma pair_cells : forall X Y (xs : list X) (ys : list Y) i x y,
  nth_error (combine xs ys) i = Some (x, y) -> nth_error xs i = Some x.
Proof.
  induction xs as [|a xs IH]; intros [|b ys] [|i] x y H; cbn in *; try discriminate; try congruence.
  eapply IH; eauto.
Qed.

(** the inner loop of the two reads *)
Lemma inner_pair : forall (body : T.BitArray L * (GL * ct) -> unit -> option ((T.BitArray L * (GL * ct)) * unit))
    (f : M.bitarray ct -> option (M.bitarray ct * ct)) base (ch : list (M.bitarray ct * ct)),
  (forall i b g, nth_error ch i = Some (b, g) ->
     body (ba_of l b, (wl, g)) tt =
     match f b with Some (b', r) => Some ((ba_of l b', (wl, r)), tt) | None => None end) ->
  for_mut (combine (map (ba_of l) (map fst ch)) (map (pair wl) (map snd ch))) body tt =
  match ParFacts.mapi_o (fun _ x => f (fst x)) base ch with
  | Some ys => Some (map (fun y => (ba_of l (fst y), (wl, snd y))) ys, tt)
  | None => None
  end.
Proof.
  intros body f base ch H. rewrite combine_maps.
  rewrite <- (imap_const _ _ (fun x => (ba_of l (fst x), (wl, snd x))) ch 0).
  rewrite (for_mut_plain _ _ (fun _ x => (ba_of l (fst x), (wl, snd x))) body (fun _ x => f (fst x)) base).
  2: { intros j [b g] Hj. cbn [fst snd]. rewrite (H j b g Hj). destruct (f b) as [[b' r]|]; reflexivity. }
  destruct (ParFacts.mapi_o (fun _ x => f (fst x)) base ch) as [ys|]; auto. now rewrite imap_const.
Qed.

Lemma need_0 : forall s n, Sc.need s n = Some tt \/ Sc.need s n = None.
Proof. intros. unfold Sc.need. destruct (n <=? s); auto. Qed.

Definition junk (avail : Z) : list ct := map (garbage avail) (seq 0 32).
Lemma junk_len : forall avail, length (junk avail) = 32%nat.
Proof. intro. unfold junk. now rewrite map_length, seq_length. Qed.
Lemma slice_text : forall avail,
  Scratch_take_glwe_slice L avail (Int (Z.of_nat 32)) wl =
  match Sc.take avail (32 * s_glwe sp wl) with
  | Some a => Some (map (pair wl) (junk avail), a)
  | None => None
  end.
Proof.
  intro avail. unfold L. cbn [Scratch_take_glwe_slice lib]. unfold given, Sc.take, val, junk.
  change (Z.of_nat 32) with 32. destruct (32 * s_glwe sp wl <=? avail); [rewrite map_map|]; reflexivity.
Qed.
Lemma split_text : forall avail size,
  Scratch_split_mut L avail (Int (Z.of_nat threads)) (Int size) =
  match Sc.need avail (Z.of_nat threads * size) with
  | Some _ => Some (repeat size threads, avail - Z.of_nat threads * size)
  | None => None
  end.
Proof. intros. unfold L. cbn [Scratch_split_mut lib]. rewrite given_need. unfold val. now rewrite nat_of_nat. Qed.
Lemma pack_text : forall r ys a, ys <> [] ->
  FheUint_pack L (wl, r) tt (map (pair wl) ys) kl a =
  match Sc.need a (s_pack sp wl wl kl) with Some _ => Some (wl, G.a_pack A ys) | None => None end.
Proof.
  intros r ys a H. unfold L. cbn [FheUint_pack lib]. rewrite given_need. cbn [fst snd].
  rewrite map_snd_pair. unfold layout_of. destruct ys; [congruence|]. reflexivity.
Qed.

Ltac panic :=
  repeat (try reflexivity;
    match goal with |- _ = ?r => match r with context[match ?e with _ => _ end] =>
      lazymatch e with context[match _ with _ => _ end] => fail | _ => destruct e end end end);
  reflexivity.

Lemma read_stateless_text : forall addr off r0 avail,
  wl = l ->
  Z.of_nat off + Z.of_nat log < b64 ->
  0 <= Z.of_nat threads * Sc.stateless_bytes c < b64 ->
  T.Memory_read_stateless L p (mem_of l m) (Int (Z.of_nat threads)) tt (wl, r0) (sl, addr) (Int (Z.of_nat off)) kl avail =
  match Sc.read_stateless_space c (Z.of_nat threads) avail with
  | Some _ =>
      match M.mem_read_stateless A threads order m addr off with
      | Some (m', w) => Some (mem_of l m', (wl, w))
      | None => None
      end
  | None => None
  end.
Proof.
  intros addr off r0 avail W OFF SZ. unfold T.Memory_read_stateless, mem_of.
  cbn [T.Memory_bits T.Memory_state T.Memory_size T.Memory_bit_size].
  rewrite len_planes. change (eq (@Int USize (Z.of_nat 32)) (lit 0)) with false. cbn [negb].
  unfold Sc.read_stateless_space, M.mem_read_stateless.
  destruct first_plane as (b0 & E0 & N0). rewrite N0.
  destruct (M.m_state m) eqn:ST; cbn [Bool.eqb negb].
  { panic. }
  change (FheUint_glwe_layout L (wl, r0)) with wl. rewrite slice_text.
  change (Sc.k_word c) with (s_glwe sp wl).
  destruct (Sc.take avail (32 * s_glwe sp wl)) as [a|]; [|reflexivity].
  rewrite index0, nth_error_map, E0. cbn [option_map ba_of T.BitArray_data].
  rewrite index0, nth_error_map.
  destruct (M.ba_data b0) as [|x0 xs0]; cbn [nth_error option_map].
  { panic. }
  change (T.BitArray_retrieve_stateless_tmp_bytes L p tt (GLWE_glwe_layout L (l, x0)) (FheUintPrepared_ggsw_layout L (sl, addr)))
    with (Some (@Int USize (Sc.stateless_bytes c))).
  cbn beta iota. rewrite umul by exact SZ.
  change (Scratch_available L a) with (@Int USize a). rewrite ge_need, split_text.
  destruct (Sc.need a (Z.of_nat threads * Sc.stateless_bytes c)) as [[]|]; [|reflexivity].
  destruct (Nat.eq_dec threads 0) as [Z0|NZ].
  { rewrite Z0. reflexivity. }
  rewrite div_ceil_text by lia. unfold Sc.chunked. rewrite (proj2 (Z.eqb_neq _ _)) by lia.
  set (size := Sc.stateless_bytes c).
  set (f := fun b => match Sc.retrieve_stateless c size with
     | Some _ => match M.ba_read_stateless A b addr off with Some r => Some (b, r) | None => None end
     | None => None end).
  match goal with |- context[for_mut _ ?body tt] =>
    pose proof (region_pair body size f (junk avail) ltac:(lia) (junk_len avail)) as R end.
  match type of R with ?P -> _ => assert (HB : P) end.
  { intros j ch Hj. cbn beta iota. rewrite (inner_pair _ f (cs * j) ch).
    2: { intros i b g Hi. cbn beta iota. replace (wl, g) with (l, g) by congruence.
         rewrite (plane_stateless p l wl sl kl addr off OFF). unfold f.
         destruct (Sc.retrieve_stateless c size); [|reflexivity].
         destruct (M.ba_read_stateless A b addr off); [|reflexivity]. now rewrite W. }
    destruct (ParFacts.mapi_o (fun _ x => f (fst x)) (cs * j) ch) as [ys|] eqn:EY; [|reflexivity].
    pose proof (mapi_o_len _ _ _ _ _ _ EY) as LY.
    rewrite !write_back_all by (rewrite !map_length; congruence). rewrite !map_map. cbn [fst snd]. reflexivity. }
  specialize (R HB). clear HB.
  rewrite (mapi_o_guard _ _ _ (Sc.retrieve_stateless c size)
    (fun _ b => match M.ba_read_stateless A b addr off with Some r => Some (b, r) | None => None end)) in R by apply planes_ne.
  rewrite (with_out_eq _ _ (fun b => match M.ba_read_stateless A b addr off with Some r => Some (b, r) | None => None end)
    (fun bs w => (M.Memory bs (M.m_size m) (M.m_bits m) false, w))).
  2: lia.
  2: { intros i [b o]. cbn [fst]. destruct (M.ba_read_stateless A b addr off); reflexivity. }
  unfold chunks in *.
  destruct (val (@Int USize (Z.of_nat cs)) =? 0).
  { destruct (Sc.retrieve_stateless c size); [|reflexivity].
    destruct (ParFacts.mapi_o _ 0 (M.m_planes m)); [discriminate|]. panic. }
  match goal with |- context[for_mut ?xs ?body tt] =>
    match type of R with match ?e with _ => _ end = _ =>
      change e with (for_mut xs body tt) in R; destruct (for_mut xs body tt) as [[t14 []]|] end end.
  2: { destruct (Sc.retrieve_stateless c size); [|reflexivity].
       destruct (ParFacts.mapi_o _ 0 (M.m_planes m)); [discriminate|]. panic. }
  destruct (Sc.retrieve_stateless c size); [|discriminate].
  destruct (ParFacts.mapi_o _ 0 (M.m_planes m)) as [ys|] eqn:EY; [|discriminate].
  apply (f_equal (fun o => match o with Some x => x | None => ([], []) end)) in R.
  pose proof (f_equal fst R) as R1. pose proof (f_equal snd R) as R2. cbn [fst snd] in R1, R2.
  pose proof (mapi_o_len _ _ _ _ _ _ EY) as LY.
  cbn beta iota. unfold T.set_Memory_bits. cbn [T.Memory_bits T.Memory_state T.Memory_size T.Memory_bit_size].
  match goal with |- match FheUint_pack L _ _ ?x _ _ with _ => _ end = _ => replace x with (map (pair wl) (map snd ys)) by (symmetry; exact R2) end.
  rewrite pack_text by (intro Q; apply map_eq_nil in Q; subst ys; rewrite H32 in LY; discriminate).
  change (Sc.k_pack c) with (s_pack sp wl wl kl).
  destruct (Sc.need a (s_pack sp wl wl kl)); [|reflexivity].
  cbn [M.m_planes M.m_size M.m_bits M.m_state]. do 3 f_equal. exact R1.
Qed.
Lemma statefull_bytes_text : forall addr x0,
  T.BitArray_retrieve_statefull_tmp_bytes L p tt (Int (Z.of_nat (M.m_bits m))) (GLWE_glwe_layout L (l, x0))
    (FheUintPrepared_ggsw_layout L (sl, addr)) =
  Some (@Int USize (Sc.statefull_bytes c (Z.of_nat log) (Z.of_nat (M.m_bits m)))).
Proof.
  intros. unfold T.BitArray_retrieve_statefull_tmp_bytes, Sc.statefull_bytes.
  change (Module_log_n L tt) with (@Int USize (Z.of_nat log)).
  rewrite gt_large, large_eq. destruct (log <? M.m_bits m)%nat; reflexivity.
Qed.

Lemma read_statefull_text : forall addr off r0 avail,
  Z.of_nat off + Z.of_nat log < b64 ->
  0 <= Z.of_nat threads * Sc.statefull_bytes c (Z.of_nat log) (Z.of_nat (M.m_bits m)) < b64 ->
  T.Memory_read_statefull L p (mem_of l m) (Int (Z.of_nat threads)) tt (wl, r0) (sl, addr) (Int (Z.of_nat off)) kl avail =
  match Sc.read_statefull_space c (Z.of_nat log) (Z.of_nat (M.m_bits m)) (Z.of_nat threads) avail with
  | Some _ =>
      match M.mem_read_statefull A threads order m addr off with
      | Some (m', w) => Some (mem_of l m', (wl, w))
      | None => None
      end
  | None => None
  end.
Proof.
  intros addr off r0 avail OFF SZ. unfold T.Memory_read_statefull, mem_of.
  cbn [T.Memory_bits T.Memory_state T.Memory_size T.Memory_bit_size].
  rewrite len_planes. change (eq (@Int USize (Z.of_nat 32)) (lit 0)) with false. cbn [negb].
  unfold Sc.read_statefull_space, M.mem_read_statefull.
  destruct first_plane as (b0 & E0 & N0). rewrite N0.
  destruct (M.m_state m) eqn:ST; cbn [Bool.eqb negb].
  { panic. }
  change (FheUint_glwe_layout L (wl, r0)) with wl. rewrite slice_text.
  change (Sc.k_word c) with (s_glwe sp wl).
  destruct (Sc.take avail (32 * s_glwe sp wl)) as [a|]; [|reflexivity].
  rewrite index0, nth_error_map, E0. cbn [option_map ba_of T.BitArray_data].
  rewrite index0, nth_error_map.
  destruct (M.ba_data b0) as [|x0 xs0]; cbn [nth_error option_map].
  { panic. }
  rewrite (statefull_bytes_text addr x0).
  cbn beta iota. rewrite umul by exact SZ.
  change (Scratch_available L a) with (@Int USize a). rewrite ge_need, split_text.
  destruct (Sc.need a (Z.of_nat threads * Sc.statefull_bytes c (Z.of_nat log) (Z.of_nat (M.m_bits m)))) as [[]|]; [|reflexivity].
  destruct (Nat.eq_dec threads 0) as [Z0|NZ].
  { rewrite Z0. reflexivity. }
  rewrite div_ceil_text by lia. unfold Sc.chunked. rewrite (proj2 (Z.eqb_neq _ _)) by lia.
  set (size := Sc.statefull_bytes c (Z.of_nat log) (Z.of_nat (M.m_bits m))).
  set (f := fun b => match Sc.retrieve_statefull c (Z.of_nat log) (Z.of_nat (M.m_bits m)) size with
     | Some _ => M.ba_read_statefull A b addr off
     | None => None end).
  match goal with |- context[for_mut _ ?body tt] =>
    pose proof (region_pair body size f (junk avail) ltac:(lia) (junk_len avail)) as R end.
  match type of R with ?P -> _ => assert (HB : P) end.
  { intros j ch Hj. cbn beta iota. rewrite (inner_pair _ f (cs * j) ch).
    2: { intros i b g Hi. cbn beta iota.
         assert (KB : M.ba_bits b = M.m_bits m).
         { apply (bits_at (cs * j + i)). eapply pair_cells. eapply (piece_in _ _ j ch i); eauto. lia. }
         rewrite (plane_statefull p l wl sl kl addr off OFF) by (rewrite KB; exact BITS64). unfold f. rewrite KB.
         destruct (Sc.retrieve_statefull _ _ _ _); [|reflexivity].
         destruct (M.ba_read_statefull A b addr off) as [[b' r]|]; reflexivity. }
    destruct (ParFacts.mapi_o (fun _ x => f (fst x)) (cs * j) ch) as [ys|] eqn:EY; [|reflexivity].
    pose proof (mapi_o_len _ _ _ _ _ _ EY) as LY.
    rewrite !write_back_all by (rewrite !map_length; congruence). rewrite !map_map. cbn [fst snd]. reflexivity. }
  specialize (R HB). clear HB.
  rewrite (mapi_o_guard _ _ _ (Sc.retrieve_statefull c (Z.of_nat log) (Z.of_nat (M.m_bits m)) size)
    (fun _ b => M.ba_read_statefull A b addr off)) in R by apply planes_ne.
  rewrite (with_out_eq _ _ (fun b => M.ba_read_statefull A b addr off)
    (fun bs w => (M.Memory bs (M.m_size m) (M.m_bits m) true, w))).
  2: lia.
  2: { reflexivity. }
  unfold chunks in *.
  destruct (val (@Int USize (Z.of_nat cs)) =? 0).
  { destruct (Sc.retrieve_statefull c (Z.of_nat log) (Z.of_nat (M.m_bits m)) size); [|reflexivity].
    destruct (ParFacts.mapi_o _ 0 (M.m_planes m)); [discriminate|]. panic. }
  match goal with |- context[for_mut ?xs ?body tt] =>
    match type of R with match ?e with _ => _ end = _ =>
      change e with (for_mut xs body tt) in R; destruct (for_mut xs body tt) as [[t14 []]|] end end.
  2: { destruct (Sc.retrieve_statefull c (Z.of_nat log) (Z.of_nat (M.m_bits m)) size); [|reflexivity].
       destruct (ParFacts.mapi_o _ 0 (M.m_planes m)); [discriminate|]. panic. }
  destruct (Sc.retrieve_statefull c (Z.of_nat log) (Z.of_nat (M.m_bits m)) size); [|discriminate].
  destruct (ParFacts.mapi_o _ 0 (M.m_planes m)) as [ys|] eqn:EY; [|discriminate].
  apply (f_equal (fun o => match o with Some x => x | None => ([], []) end)) in R.
  pose proof (f_equal fst R) as R1. pose proof (f_equal snd R) as R2. cbn [fst snd] in R1, R2.
  pose proof (mapi_o_len _ _ _ _ _ _ EY) as LY.
  cbn beta iota. unfold T.set_Memory_bits, T.set_Memory_state. cbn [T.Memory_bits T.Memory_state T.Memory_size T.Memory_bit_size].
  match goal with |- match FheUint_pack L _ _ ?x _ _ with _ => _ end = _ => replace x with (map (pair wl) (map snd ys)) by (symmetry; exact R2) end.
  rewrite pack_text by (intro Q; apply map_eq_nil in Q; subst ys; rewrite H32 in LY; discriminate).
  change (Sc.k_pack c) with (s_pack sp wl wl kl).
  destruct (Sc.need a (s_pack sp wl wl kl)); [|reflexivity].
  cbn [M.m_planes M.m_size M.m_bits M.m_state]. do 3 f_equal. exact R1.
Qed.
(** the scratch sizes are sizes *)
Definition sizes_ok : Prop :=
  0 <= s_glwe sp l /\ 0 <= s_glwe sp wl /\ 0 <= s_rotation sp l sl /\ 0 <= s_retrieval sp l sl /\
  0 <= s_trace sp l l kl /\ 0 <= s_normalize sp /\ 0 <= s_rotate sp.

Lemma rev_bytes_text : forall addr x0, sizes_ok ->
  Sc.rev_bytes c (Z.of_nat log) (Z.of_nat (M.m_bits m)) < b64 ->
  T.BitArray_retrieve_statefull_rev_tmp_bytes L p tt (Int (Z.of_nat (M.m_bits m))) (GLWE_glwe_layout L (l, x0))
    (FheUintPrepared_ggsw_layout L (sl, addr)) (Keys_automorphism_key_infos L kl) =
  Some (@Int USize (Sc.rev_bytes c (Z.of_nat log) (Z.of_nat (M.m_bits m)))).
Proof.
  intros addr x0 (S1 & S2 & S3 & S4 & S5 & S6 & _) B. unfold T.BitArray_retrieve_statefull_rev_tmp_bytes.
  change (Module_log_n L tt) with (@Int USize (Z.of_nat log)).
  change (RustIter.max (GLWE_bytes_of_from_infos L (GLWE_glwe_layout L (l, x0))) (Module_glwe_normalize_tmp_bytes L tt))
    with (@Int USize (Z.max (s_glwe sp l) (s_normalize sp))).
  change (Module_glwe_trace_tmp_bytes L tt (GLWE_glwe_layout L (l, x0)) (GLWE_glwe_layout L (l, x0)) (Keys_automorphism_key_infos L kl))
    with (@Int USize (s_trace sp l l kl)).
  unfold Sc.rev_bytes in *. cbn [Sc.k_trace Sc.k_glwe Sc.k_normalize Sc.k_retrieval Sc.k_rotation costs_at] in *.
  rewrite uadd by lia.
  rewrite gt_large, large_eq. destruct (log <? M.m_bits m)%nat; reflexivity.
Qed.
Lemma rev_bytes_pos : sizes_ok -> 0 <= Sc.rev_bytes c (Z.of_nat log) (Z.of_nat (M.m_bits m)).
Proof.
  intros (S1 & S2 & S3 & S4 & S5 & S6 & _). unfold Sc.rev_bytes.
  cbn [Sc.k_trace Sc.k_glwe Sc.k_normalize Sc.k_retrieval Sc.k_rotation costs_at]. lia.
Qed.

(** the inner loop of the two writes *)
Lemma inner_enum : forall (body : int USize * T.BitArray L -> unit -> option ((int USize * T.BitArray L) * unit))
    (g : nat -> M.bitarray ct -> option (M.bitarray ct)) base (ch : list (M.bitarray ct)),
  (forall i b, nth_error ch i = Some b ->
     body (Int (Z.of_nat i), ba_of l b) tt =
     match g (base + i)%nat b with Some b' => Some ((Int (Z.of_nat i), ba_of l b'), tt) | None => None end) ->
  match for_mut (enumerate (map (ba_of l) ch)) body tt with
  | Some (t17, _) => Some (write_back (map (ba_of l) ch) (map (fun x => snd x) t17))
  | None => None
  end =
  match ParFacts.mapi_o g base ch with
  | Some ys => Some (map (ba_of l) ys)
  | None => None
  end.
Proof.
  intros body g base ch H. rewrite enumerate_imap, imap_map.
  rewrite (for_mut_plain _ _ (fun i b => (@Int USize (Z.of_nat i), ba_of l b)) body g base).
  2: { intros j b Hj. apply H; auto. }
  destruct (ParFacts.mapi_o g base ch) as [ys|] eqn:EY; auto.
  pose proof (mapi_o_len _ _ _ _ _ _ EY) as LY.
  rewrite map_imap. cbn [snd]. rewrite imap_const, write_back_all by (rewrite !map_length; congruence). reflexivity.
Qed.

Lemma bit_index : forall j i, (cs * j + i < 32)%nat ->
  match mul p (@Int USize (Z.of_nat cs)) (Int (Z.of_nat j)) with
  | Some t => add p t (Int (Z.of_nat i))
  | None => None
  end = Some (Int (Z.of_nat (cs * j + i))).
Proof.
  intros j i H. unfold b64 in *. rewrite umul by (unfold b64; rewrite <- Nat2Z.inj_mul; lia). rewrite uadd by (unfold b64; rewrite <- Nat2Z.inj_mul; lia).
  now rewrite Nat2Z.inj_add, Nat2Z.inj_mul.
Qed.

Lemma read_statefull_rev_text : forall addr off w avail,
  sizes_ok ->
  Z.of_nat off + Z.of_nat log < b64 ->
  Sc.rev_bytes c (Z.of_nat log) (Z.of_nat (M.m_bits m)) + s_glwe sp wl < b64 ->
  Z.of_nat threads * (Sc.rev_bytes c (Z.of_nat log) (Z.of_nat (M.m_bits m)) + s_glwe sp wl) < b64 ->
  T.Memory_read_statefull_rev L p (mem_of l m) (Int (Z.of_nat threads)) tt (wl, w) (sl, addr) (Int (Z.of_nat off)) kl avail =
  match Sc.read_statefull_rev_space c (Z.of_nat log) (Z.of_nat (M.m_bits m)) (Z.of_nat threads) avail with
  | Some _ =>
      match M.mem_read_statefull_rev A threads order m w addr off with
      | Some m' => Some (mem_of l m')
      | None => None
      end
  | None => None
  end.
Proof.
  intros addr off w avail OK OFF S1 S2. pose proof (rev_bytes_pos OK) as RP.
  assert (WP : 0 <= s_glwe sp wl) by (unfold sizes_ok in OK; lia).
  unfold T.Memory_read_statefull_rev, mem_of.
  cbn [T.Memory_bits T.Memory_state T.Memory_size T.Memory_bit_size].
  rewrite len_planes.
  unfold Sc.read_statefull_rev_space, M.mem_read_statefull_rev.
  destruct first_plane as (b0 & E0 & N0). rewrite N0.
  destruct (M.m_state m) eqn:ST; cbn [Bool.eqb negb].
  2: { panic. }
  rewrite index0, nth_error_map, E0. cbn [option_map ba_of T.BitArray_data].
  rewrite index0, nth_error_map.
  destruct (M.ba_data b0) as [|x0 xs0]; cbn [nth_error option_map].
  { panic. }
  rewrite (rev_bytes_text addr x0 OK) by lia.
  change (GLWE_bytes_of_from_infos L (FheUint_glwe_layout L (wl, w))) with (@Int USize (s_glwe sp wl)).
  cbn beta iota. rewrite uadd by lia. rewrite umul by nia.
  change (Sc.k_word c) with (s_glwe sp wl).
  set (size := Sc.rev_bytes c (Z.of_nat log) (Z.of_nat (M.m_bits m)) + s_glwe sp wl) in *.
  change (Scratch_available L avail) with (@Int USize avail). rewrite ge_need, split_text.
  destruct (Sc.need avail (Z.of_nat threads * size)) as [[]|]; [|reflexivity].
  destruct (Nat.eq_dec threads 0) as [Z0|NZ].
  { rewrite Z0. reflexivity. }
  rewrite div_ceil_text by lia. unfold Sc.chunked. rewrite (proj2 (Z.eqb_neq _ _)) by lia.
  set (space := match Sc.take size (s_glwe sp wl) with
     | Some a => match Sc.need a (Sc.k_bit c) with
         | Some _ => Sc.retrieve_statefull_rev c (Z.of_nat log) (Z.of_nat (M.m_bits m)) a | None => None end
     | None => None end).
  set (g := fun i b => match space with
     | Some _ => M.ba_read_statefull_rev A b (G.a_bit A w i) addr off
     | None => None end).
  match goal with |- context[for_mut _ ?body tt] =>
    pose proof (region_enum body size g ltac:(lia)) as R end.
  match type of R with ?P -> _ => assert (HB : P) end.
  { intros j ch Hj. cbn beta iota.
    match goal with |- match for_mut _ ?body tt with _ => _ end = _ => pose proof (inner_enum body g (cs * j) ch) as IE end.
    match type of IE with ?P -> _ => assert (HI : P) end.
    { intros i b Hi. cbn beta iota.
      pose proof (piece_in _ _ j ch i b ltac:(lia) Hj Hi) as AT.
      assert (KB : M.ba_bits b = M.m_bits m) by (apply (bits_at (cs * j + i)); exact AT).
      assert (LT : (cs * j + i < 32)%nat) by (rewrite <- H32; apply nth_error_Some; congruence).
      pose proof (bit_index j i LT) as BI.
      change (Scratch_take_glwe L size (FheUint_glwe_layout L (wl, w)))
        with (given size (s_glwe sp wl) (Some ((wl, garbage size 0), size - s_glwe sp wl))).
      unfold g, space.
      rewrite (given_take size (s_glwe sp wl) (fun a => Some ((wl, garbage size 0), a))).
      destruct (Sc.take size (s_glwe sp wl)) as [a|]; [|reflexivity].
      destruct (mul p (@Int USize (Z.of_nat cs)) (Int (Z.of_nat j))) as [t|]; [|discriminate].
      rewrite BI.
      change (FheUint_get_bit_glwe L (wl, w) tt (Int (Z.of_nat (cs * j + i))) (wl, garbage size 0) kl a)
        with (given a (s_bit sp wl wl kl) (Some (wl, G.a_bit A w (nat_of (@Int USize (Z.of_nat (cs * j + i))))))).
      rewrite given_need, nat_of_nat. change (Sc.k_bit c) with (s_bit sp wl wl kl).
      destruct (Sc.need a (s_bit sp wl wl kl)) as [[]|]; [|reflexivity].
      rewrite (plane_rev p l wl sl kl addr off OFF) by (rewrite KB; exact BITS64). rewrite KB.
      destruct (Sc.retrieve_statefull_rev _ _ _ _); [|reflexivity].
      destruct (M.ba_read_statefull_rev A b _ addr off); reflexivity. }
    specialize (IE HI).
    match type of IE with match ?e with _ => _ end = _ => destruct e as [[t17 []]|] end;
      destruct (ParFacts.mapi_o g (cs * j) ch) as [ys|]; try discriminate; auto.
    injection IE as IE. rewrite IE. reflexivity. }
  specialize (R HB). clear HB.
  rewrite MemOps.region_eq in R |- * by (rewrite H32; apply ORD; lia).
  unfold g in R. rewrite (mapi_o_guard _ _ _ space
    (fun i b => M.ba_read_statefull_rev A b (G.a_bit A w i) addr off)) in R by apply planes_ne.
  unfold chunks in *.
  destruct (val (@Int USize (Z.of_nat cs)) =? 0).
  { fold space. destruct space; [|reflexivity].
    destruct (ParFacts.mapi_o _ 0 (M.m_planes m)); [discriminate|]. reflexivity. }
  match goal with |- context[for_mut ?xs ?body tt] =>
    match type of R with match ?e with _ => _ end = _ =>
      change e with (for_mut xs body tt) in R; destruct (for_mut xs body tt) as [[t18 []]|] end end.
  2: { fold space. destruct space; [|reflexivity].
       destruct (ParFacts.mapi_o _ 0 (M.m_planes m)); [discriminate|]. reflexivity. }
  fold space. destruct space; [|discriminate].
  destruct (ParFacts.mapi_o _ 0 (M.m_planes m)) as [ys|] eqn:EY; [|discriminate].
  apply (f_equal (fun o => match o with Some x => x | None => [] end)) in R. cbn beta iota in R.
  unfold T.set_Memory_bits, T.set_Memory_state. cbn [T.Memory_bits T.Memory_state T.Memory_size T.Memory_bit_size].
  cbn [M.m_planes M.m_size M.m_bits M.m_state]. do 2 f_equal. exact R.
Qed.
Lemma write_text : forall addr off w avail,
  sizes_ok ->
  Z.of_nat off + Z.of_nat log < b64 ->
  Sc.rev_bytes c (Z.of_nat log) (Z.of_nat (M.m_bits m)) + s_glwe sp wl < b64 ->
  Z.of_nat threads * (Sc.rev_bytes c (Z.of_nat log) (Z.of_nat (M.m_bits m)) + s_glwe sp wl) < b64 ->
  T.Memory_write L p (mem_of l m) (Int (Z.of_nat threads)) tt (wl, w) (sl, addr) (Int (Z.of_nat off)) kl avail =
  match Sc.write_space c (Z.of_nat log) (Z.of_nat (M.m_bits m)) (Z.of_nat threads) avail with
  | Some _ =>
      match M.mem_write A threads order m w addr off with
      | Some m' => Some (mem_of l m')
      | None => None
      end
  | None => None
  end.
Proof.
  intros addr off w avail OK OFF S1 S2. pose proof (rev_bytes_pos OK) as RP.
  assert (WP : 0 <= s_glwe sp wl) by (unfold sizes_ok in OK; lia).
  unfold T.Memory_write, mem_of.
  cbn [T.Memory_bits T.Memory_state T.Memory_size T.Memory_bit_size].
  rewrite len_planes.
  unfold Sc.write_space, M.mem_write.
  destruct first_plane as (b0 & E0 & N0). rewrite N0.
  destruct (M.m_state m) eqn:ST; cbn [Bool.eqb negb].
  { panic. }
  rewrite index0, nth_error_map, E0. cbn [option_map ba_of T.BitArray_data].
  rewrite index0, nth_error_map.
  destruct (M.ba_data b0) as [|x0 xs0]; cbn [nth_error option_map].
  { panic. }
  unfold T.BitArray_write_tmp_bytes. rewrite (rev_bytes_text addr x0 OK) by lia.
  unfold Sc.write_bytes.
  change (GLWE_bytes_of_from_infos L (FheUint_glwe_layout L (wl, w))) with (@Int USize (s_glwe sp wl)).
  cbn beta iota. rewrite uadd by lia. rewrite umul by nia.
  change (Sc.k_word c) with (s_glwe sp wl).
  set (size := Sc.rev_bytes c (Z.of_nat log) (Z.of_nat (M.m_bits m)) + s_glwe sp wl) in *.
  change (Scratch_available L avail) with (@Int USize avail). rewrite ge_need, split_text.
  destruct (Sc.need avail (Z.of_nat threads * size)) as [[]|]; [|reflexivity].
  destruct (Nat.eq_dec threads 0) as [Z0|NZ].
  { rewrite Z0. reflexivity. }
  rewrite div_ceil_text by lia. unfold Sc.chunked. rewrite (proj2 (Z.eqb_neq _ _)) by lia.
  set (space := match Sc.take size (s_glwe sp wl) with
     | Some a => match Sc.need a (Sc.k_bit c) with
         | Some _ => Sc.write_plane c (Z.of_nat log) (Z.of_nat (M.m_bits m)) a | None => None end
     | None => None end).
  set (g := fun i b => match space with
     | Some _ => M.ba_write A b (G.a_bit A w i) addr off
     | None => None end).
  match goal with |- context[for_mut _ ?body tt] =>
    pose proof (region_enum body size g ltac:(lia)) as R end.
  match type of R with ?P -> _ => assert (HB : P) end.
  { intros j ch Hj. cbn beta iota.
    match goal with |- match for_mut _ ?body tt with _ => _ end = _ => pose proof (inner_enum body g (cs * j) ch) as IE end.
    match type of IE with ?P -> _ => assert (HI : P) end.
    { intros i b Hi. cbn beta iota.
      pose proof (piece_in _ _ j ch i b ltac:(lia) Hj Hi) as AT.
      assert (KB : M.ba_bits b = M.m_bits m) by (apply (bits_at (cs * j + i)); exact AT).
      assert (LT : (cs * j + i < 32)%nat) by (rewrite <- H32; apply nth_error_Some; congruence).
      pose proof (bit_index j i LT) as BI.
      change (Scratch_take_glwe L size (FheUint_glwe_layout L (wl, w)))
        with (given size (s_glwe sp wl) (Some ((wl, garbage size 0), size - s_glwe sp wl))).
      unfold g, space.
      rewrite (given_take size (s_glwe sp wl) (fun a => Some ((wl, garbage size 0), a))).
      destruct (Sc.take size (s_glwe sp wl)) as [a|]; [|reflexivity].
      destruct (mul p (@Int USize (Z.of_nat cs)) (Int (Z.of_nat j))) as [t|]; [|discriminate].
      rewrite BI.
      change (FheUint_get_bit_glwe L (wl, w) tt (Int (Z.of_nat (cs * j + i))) (wl, garbage size 0) kl a)
        with (given a (s_bit sp wl wl kl) (Some (wl, G.a_bit A w (nat_of (@Int USize (Z.of_nat (cs * j + i))))))).
      rewrite given_need, nat_of_nat. change (Sc.k_bit c) with (s_bit sp wl wl kl).
      destruct (Sc.need a (s_bit sp wl wl kl)) as [[]|]; [|reflexivity].
      rewrite (plane_write p l wl sl kl addr off OFF) by (rewrite KB; exact BITS64). rewrite KB.
      destruct (Sc.write_plane _ _ _ _); [|reflexivity].
      destruct (M.ba_write A b _ addr off); reflexivity. }
    specialize (IE HI).
    match type of IE with match ?e with _ => _ end = _ => destruct e as [[t17 []]|] end;
      destruct (ParFacts.mapi_o g (cs * j) ch) as [ys|]; try discriminate; auto.
    injection IE as IE. rewrite IE. reflexivity. }
  specialize (R HB). clear HB.
  rewrite MemOps.region_eq in R |- * by (rewrite H32; apply ORD; lia).
  unfold g in R. rewrite (mapi_o_guard _ _ _ space
    (fun i b => M.ba_write A b (G.a_bit A w i) addr off)) in R by apply planes_ne.
  unfold chunks in *.
  destruct (val (@Int USize (Z.of_nat cs)) =? 0).
  { fold space. destruct space; [|reflexivity].
    destruct (ParFacts.mapi_o _ 0 (M.m_planes m)); [discriminate|]. reflexivity. }
  match goal with |- context[for_mut ?xs ?body tt] =>
    match type of R with match ?e with _ => _ end = _ =>
      change e with (for_mut xs body tt) in R; destruct (for_mut xs body tt) as [[t18 []]|] end end.
  2: { fold space. destruct space; [|reflexivity].
       destruct (ParFacts.mapi_o _ 0 (M.m_planes m)); [discriminate|]. reflexivity. }
  fold space. destruct space; [|discriminate].
  destruct (ParFacts.mapi_o _ 0 (M.m_planes m)) as [ys|] eqn:EY; [|discriminate].
  apply (f_equal (fun o => match o with Some x => x | None => [] end)) in R. cbn beta iota in R.
  unfold T.set_Memory_bits, T.set_Memory_state. cbn [T.Memory_bits T.Memory_state T.Memory_size T.Memory_bit_size].
  cbn [M.m_planes M.m_size M.m_bits M.m_state]. do 2 f_equal. exact R.
Qed.

(** one plane of the zeroing; [tmp] is the ciphertext the loop keeps *)
Lemma zero_parts : forall addr, Z.of_nat addr < b64 ->
  div (@Int USize (Z.of_nat addr)) (Module_n L tt) = Some (Int (Z.of_nat (M.zero_poly_of A addr))) /\
  rem (@Int USize (Z.of_nat (M.zero_poly_of A addr))) (Module_n L tt) = Some (Int (Z.of_nat (M.zero_idx_of A addr))).
Proof.
  intros addr B. unfold M.zero_poly_of, M.zero_idx_of, M.zero_poly_of, G.ring, L. cbn [Module_n lib].
  assert (P : 0 < 2 ^ Z.of_nat log) by (apply Z.pow_pos_nonneg; lia).
  assert (Q : Z.of_nat (2 ^ log) = 2 ^ Z.of_nat log) by (rewrite Nat2Z.inj_pow; reflexivity).
  split; unfold div, rem, div_ok, val; cbn [is_signed andb negb];
    rewrite (proj2 (Z.eqb_neq _ _)) by lia; cbn [negb andb]; do 2 f_equal.
  - rewrite Z.quot_div_nonneg by lia. rewrite Nat2Z.inj_div, Q. reflexivity.
  - rewrite Z.rem_mod_nonneg by lia. rewrite Nat2Z.inj_mod, Q. reflexivity.
Qed.
Lemma idx_bound : forall addr, Z.of_nat (M.zero_idx_of A addr) < 2 ^ Z.of_nat log.
Proof.
  intro addr. unfold M.zero_idx_of, G.ring.
  assert (Q : Z.of_nat (2 ^ log) = 2 ^ Z.of_nat log) by (rewrite Nat2Z.inj_pow; reflexivity).
  rewrite <- Q. apply Nat2Z.inj_lt. apply Nat.mod_upper_bound. apply Nat.pow_nonzero. lia.
Qed.
Lemma idx_i64 : forall addr, (log <= 62)%nat ->
  cast I64 (@Int USize (Z.of_nat (M.zero_idx_of A addr))) = Int (Z.of_nat (M.zero_idx_of A addr)) /\
  neg p (@Int I64 (Z.of_nat (M.zero_idx_of A addr))) = Some (Int (- Z.of_nat (M.zero_idx_of A addr))).
Proof.
  intros addr HL. pose proof (idx_bound addr) as B.
  assert (2 ^ Z.of_nat log <= 2 ^ 62) by (apply Z.pow_le_mono_r; lia).
  change (2 ^ 62) with 4611686018427387904 in *. set (i := Z.of_nat (M.zero_idx_of A addr)) in *.
  assert (0 <= i) by lia. clearbody i. split.
  - unfold cast. change (widens USize I64) with false. cbn beta iota. unfold wrap. cbn [is_signed val card largest].
    rewrite Z.mod_small by lia. rewrite (proj2 (Z.leb_le _ _)) by lia. reflexivity.
  - unfold neg, checked, fits, val, least, largest. rewrite (proj2 (Z.leb_le _ _)), (proj2 (Z.leb_le _ _)) by lia. reflexivity.
Qed.
Lemma set_twice : forall X (d e : list X) n x y,
  Verif.Word.set_nth d n x = Some e -> Verif.Word.set_nth e n y = Verif.Word.set_nth d n y.
Proof.
  induction d as [|h t IH]; intros e [|n] x y H; cbn in H; try discriminate.
  - injection H as <-. reflexivity.
  - destruct (Verif.Word.set_nth t n x) as [f|] eqn:E; [|discriminate]. injection H as <-. cbn.
    now rewrite (IH _ _ _ y E).
Qed.
Lemma set_get : forall X (d e : list X) n x, Verif.Word.set_nth d n x = Some e -> nth_error e n = Some x.
Proof.
  induction d as [|h t IH]; intros e [|n] x H; cbn in H; try discriminate.
  - injection H as <-. reflexivity.
  - destruct (Verif.Word.set_nth t n x) as [f|] eqn:E; [|discriminate]. injection H as <-. cbn. eauto.
Qed.
Lemma set_some : forall X (d : list X) n x y, nth_error d n = Some x -> exists e, Verif.Word.set_nth d n y = Some e.
Proof. intros X d n x y H. apply ListFacts.set_nth_some. apply nth_error_Some. congruence. Qed.

Lemma zero_text : forall addr avail,
  sizes_ok -> (log <= 62)%nat -> Z.of_nat addr < b64 ->
  Z.max (s_rotate sp) (s_trace sp l l kl) + s_glwe sp l < b64 ->
  Z.of_nat threads * (Z.max (s_rotate sp) (s_trace sp l l kl) + s_glwe sp l) < b64 ->
  T.Memory_zero L p (mem_of l m) (Int (Z.of_nat threads)) tt (Int (Z.of_nat addr)) kl avail =
  match Sc.zero_space c (Z.of_nat threads) avail with
  | Some _ =>
      match M.mem_zero A threads order m addr with
      | Some m' => Some (mem_of l m')
      | None => None
      end
  | None => None
  end.
Proof.
  intros addr avail OK HL HA S1 S2.
  assert (P1 : 0 <= Z.max (s_rotate sp) (s_trace sp l l kl) + s_glwe sp l) by (unfold sizes_ok in OK; lia).
  unfold T.Memory_zero, mem_of.
  cbn [T.Memory_bits T.Memory_state T.Memory_size T.Memory_bit_size].
  destruct (zero_parts addr HA) as [D1 D2]. rewrite D1. cbn beta iota zeta. rewrite D2.
  destruct (idx_i64 addr HL) as [I1 I2].
  rewrite len_planes. unfold Sc.zero_space, M.mem_zero.
  destruct first_plane as (b0 & E0 & N0). rewrite N0.
  rewrite index0, nth_error_map, E0. cbn [option_map ba_of T.BitArray_data].
  rewrite index0, nth_error_map.
  destruct (M.ba_data b0) as [|x0 xs0]; cbn [nth_error option_map].
  { panic. }
  change (GLWE_glwe_layout L (l, x0)) with l.
  change (RustIter.max (Module_glwe_rotate_tmp_bytes L tt) (Module_glwe_trace_tmp_bytes L tt l l (Keys_automorphism_key_infos L kl)))
    with (@Int USize (Z.max (s_rotate sp) (s_trace sp l l kl))).
  change (GLWE_bytes_of_from_infos L l) with (@Int USize (s_glwe sp l)).
  cbn beta iota zeta. rewrite uadd by lia. rewrite umul by nia.
  change (Sc.k_rotate c) with (s_rotate sp). change (Sc.k_trace c) with (s_trace sp l l kl). change (Sc.k_glwe c) with (s_glwe sp l).
  set (size := Z.max (s_rotate sp) (s_trace sp l l kl) + s_glwe sp l) in *.
  change (Scratch_available L avail) with (@Int USize avail). rewrite ge_need, split_text.
  destruct (Sc.need avail (Z.of_nat threads * size)) as [[]|]; [|reflexivity].
  destruct (Nat.eq_dec threads 0) as [Z0|NZ].
  { rewrite Z0. reflexivity. }
  rewrite div_ceil_text by lia. unfold Sc.chunked. rewrite (proj2 (Z.eqb_neq _ _)) by lia.
  set (space := match Sc.take size (s_glwe sp l) with
     | Some a => match Sc.need a (s_rotate sp) with
         | Some _ => match Sc.need a (s_trace sp l l kl) with Some _ => Sc.need a (s_rotate sp) | None => None end
         | None => None end
     | None => None end).
  set (g := fun (_ : nat) b => match space with
     | Some _ => M.ba_zero A addr b
     | None => None end).
  match goal with |- context[for_mut _ ?body tt] =>
    pose proof (region_plain body size g ltac:(lia)) as R end.
  match type of R with ?P -> _ => assert (HB : P) end.
  { intros j ch Hj. cbn beta iota.
    change (Scratch_take_glwe L size l)
        with (given size (s_glwe sp l) (Some ((l, garbage size 0), size - s_glwe sp l))).
    rewrite (given_take size (s_glwe sp l) (fun a => Some ((l, garbage size 0), a))).
    assert (CN : ch <> []) by (eapply pieces_ne; [apply cs_pos; lia | exact Hj]).
    unfold g at 1, space. destruct (Sc.take size (s_glwe sp l)) as [a|]; [|destruct ch; [congruence|reflexivity]].
    match goal with |- match for_mut _ ?body ?s0 with _ => _ end = _ =>
      pose proof (for_mut_imap _ _ _ (fun _ => ba_of l) body
        (fun _ b => match (match Sc.need a (s_rotate sp) with
         | Some _ => match Sc.need a (s_trace sp l l kl) with Some _ => Sc.need a (s_rotate sp) | None => None end
         | None => None end) with Some _ => M.ba_zero A addr b | None => None end)
         (fun tmp => fst tmp = l) (cs * j) ch 0 s0 eq_refl) as F end.
    match type of F with ?P -> _ => assert (HI : P) end.
    { intros k b [l0 t0] Hk PL. cbn [fst] in PL. subst l0. clear F. cbn beta iota.
      rewrite I1, I2. unfold ba_of. cbn [T.BitArray_data T.set_BitArray_data T.BitArray_retriever T.BitArray_bit_size].
      unfold M.ba_zero. set (n := M.zero_poly_of A addr). set (ix := Z.of_nat (M.zero_idx_of A addr)).
      rewrite index_map. unfold store. change (val (@Int USize (Z.of_nat n))) with (Z.of_nat n). rewrite !Nat2Z.id.
      destruct (nth_error (M.ba_data b) n) as [x|] eqn:EX.
      2: { cbn [option_map]. repeat match goal with |- context[match ?e with _ => _ end] =>
             lazymatch e with context[match _ with _ => _ end] => fail | _ => destruct e end end; reflexivity. }
      cbn [option_map].
      change (Module_glwe_rotate_inplace L tt (Int (- ix)) (l, x) a)
        with (given a (s_rotate sp) (Some (l, G.a_rot A (- ix) x))).
      rewrite given_need. destruct (Sc.need a (s_rotate sp)) as [[]|] eqn:NR; [|reflexivity].
      rewrite replace_map.
      destruct (set_some _ _ n x (G.a_rot A (- ix) x) EX) as (d1 & ED1). rewrite ED1. cbn [option_map].
      rewrite index_map, (set_get _ _ _ _ _ ED1). cbn [option_map].
      change (Module_glwe_trace L tt (l, t0) (lit 0) (l, G.a_rot A (- ix) x) kl a)
        with (given a (s_trace sp l l kl) (Some (l, G.a_trace A (G.a_rot A (- ix) x)))).
      rewrite given_need. destruct (Sc.need a (s_trace sp l l kl)) as [[]|]; [|reflexivity].
      change (Module_glwe_sub_inplace L tt (l, G.a_rot A (- ix) x) (l, G.a_trace A (G.a_rot A (- ix) x)))
        with (Some (l, G.a_sub A (G.a_rot A (- ix) x) (G.a_trace A (G.a_rot A (- ix) x)))).
      cbn beta iota. set (y := G.a_sub A (G.a_rot A (- ix) x) (G.a_trace A (G.a_rot A (- ix) x))).
      rewrite replace_map.
      rewrite (set_twice _ _ _ _ _ y ED1). destruct (set_some _ _ n x y EX) as (d2 & ED2). rewrite ED2. cbn [option_map].
      rewrite index_map, (set_get _ _ _ _ _ ED2). cbn [option_map].
      change (Module_glwe_rotate_inplace L tt (Int ix) (l, y) a) with (given a (s_rotate sp) (Some (l, G.a_rot A ix y))).
      rewrite given_need, NR. rewrite replace_map.
      rewrite (set_twice _ _ _ _ _ (G.a_rot A ix y) ED2). destruct (set_some _ _ n x (G.a_rot A ix y) EX) as (d3 & ED3).
      rewrite ED3. cbn [option_map]. eexists; split; [|reflexivity]. reflexivity. }
    specialize (F HI). clear HI.
    rewrite imap_const in F. rewrite Nat.add_0_r in F. fold space in F |- *. fold g in F |- *.
    destruct (ParFacts.mapi_o g (cs * j) ch) as [ys|] eqn:EY.
    - destruct F as (s' & _ & F). rewrite imap_const in F.
      match goal with |- match ?e with _ => _ end = _ => match type of F with ?e' = _ => change e' with e in F; rewrite F end end.
      pose proof (mapi_o_len _ _ _ _ _ _ EY) as LY.
      rewrite write_back_all by (rewrite !map_length; congruence). reflexivity.
    - match goal with |- match ?e with _ => _ end = _ => match type of F with ?e' = _ => change e' with e in F; rewrite F end end.
      reflexivity. }
  specialize (R HB). clear HB.
  rewrite MemOps.region_eq in R |- * by (rewrite H32; apply ORD; lia).
  unfold g in R. rewrite (mapi_o_guard _ _ _ space (fun _ b => M.ba_zero A addr b)) in R by apply planes_ne.
  unfold chunks in *.
  destruct (val (@Int USize (Z.of_nat cs)) =? 0).
  { fold space. destruct space; [|reflexivity].
    destruct (ParFacts.mapi_o _ 0 (M.m_planes m)); [discriminate|]. reflexivity. }
  match goal with |- context[for_mut ?xs ?body tt] =>
    match type of R with match ?e with _ => _ end = _ =>
      change e with (for_mut xs body tt) in R; destruct (for_mut xs body tt) as [[t18 []]|] end end.
  2: { fold space. destruct space; [|reflexivity].
       destruct (ParFacts.mapi_o _ 0 (M.m_planes m)); [discriminate|]. reflexivity. }
  fold space. destruct space; [|discriminate].
  destruct (ParFacts.mapi_o _ 0 (M.m_planes m)) as [ys|] eqn:EY; [|discriminate].
  apply (f_equal (fun o => match o with Some x => x | None => [] end)) in R. cbn beta iota in R.
  unfold T.set_Memory_bits. cbn [T.Memory_bits T.Memory_state T.Memory_size T.Memory_bit_size].
  cbn [M.m_planes M.m_size M.m_bits M.m_state]. do 2 f_equal. exact R.
Qed.
End Whole.
End Facts.
