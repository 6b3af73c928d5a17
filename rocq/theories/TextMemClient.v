(** * The text of fhevm/src/memory.rs: allocation, encryption, decryption (helper lemmas)

    The client's half of TextMem.v, against EncMem.v.  Encryption and decryption
    are those of the ideal functionality: a ciphertext is its message. *)
Require Import ZArith List Bool Lia Znat.
From Verif Require Import Rust RustIter RustLib TextLib TextLoop TextMemFacts.
Require Verif.Word Verif.Glwe Verif.Par Verif.EncMem Verif.ListFacts.
Require Verif.TextMem.
Import ListNotations.
Open Scope Z_scope.

Lemma counting_map : forall t n a, @counting t n a = map (fun i => Int (a + Z.of_nat i)) (seq 0 n).
Proof.
  intros t n. induction n as [|n IH]; intro a; auto. cbn [counting seq map].
  rewrite Z.add_0_r. f_equal. rewrite IH, <- seq_shift, map_map. apply map_ext. intro i. f_equal. lia.
Qed.
Lemma collect_const : forall X Y (l : list X) (y : Y), collect l (fun _ => Some y) = Some (repeat y (length l)).
Proof. induction l as [|x l IH]; intro y; cbn; auto. now rewrite IH. Qed.

(** the last byte of a loop over two lists *)
Lemma zip_fst : forall X Y (body : Y * X -> unit -> option ((Y * X) * unit)) (h : X -> Y -> Y) xs ys,
  (forall y x, body (y, x) tt = Some ((h x y, x), tt)) ->
  exists t, for_mut (combine ys xs) body tt = Some (t, tt) /\
    write_back ys (map (fun x => fst x) t) = M.zip_over h xs ys.
Proof.
  intros X Y body h xs ys H. revert xs. induction ys as [|y ys IH]; intros [|x xs]; cbn [combine for_mut].
  - exists []. auto.
  - exists []. auto.
  - exists []. auto.
  - rewrite H. destruct (IH xs) as (t & E & W). rewrite E. eexists. split; [reflexivity|].
    cbn. unfold write_back in *. cbn [length skipn app]. f_equal. exact W.
Qed.
Lemma zip_snd : forall X Y (body : X * Y -> unit -> option ((X * Y) * unit)) (h : X -> Y -> Y) xs ys,
  (forall x y, In x xs -> In y ys -> body (x, y) tt = Some ((x, h x y), tt)) ->
  exists t, for_mut (combine xs ys) body tt = Some (t, tt) /\
    write_back ys (map (fun x => snd x) t) = M.zip_over h xs ys.
Proof.
  intros X Y body h xs. induction xs as [|x xs IH]; intros [|y ys] H; cbn [combine for_mut].
  - exists []. auto.
  - exists []. auto.
  - exists []. auto.
  - rewrite H by (cbn; auto). destruct (IH ys) as (t & E & W); [intros; apply H; cbn; auto|].
    rewrite E. eexists. split; [reflexivity|].
    cbn. unfold write_back in *. cbn [length skipn app]. f_equal. exact W.
Qed.
Lemma zip_over_map : forall X Y Y' X' (f : X -> X') (g : Y -> Y') h h',
  (forall x y, h' (f x) (g y) = g (h x y)) -> forall xs ys,
  M.zip_over h' (map f xs) (map g ys) = map g (M.zip_over h xs ys).
Proof.
  intros X Y Y' X' f g h h' H. induction xs as [|x xs IH]; intros [|y ys]; cbn; auto. now rewrite H, IH.
Qed.
Lemma zip_over_len : forall X Y (h : X -> Y -> Y) xs ys, length (M.zip_over h xs ys) = length ys.
Proof. induction xs as [|x xs IH]; intros [|y ys]; cbn; auto. Qed.
Lemma zip_over_again : forall X Y (h k : X -> Y) xs ys,
  M.zip_over (fun x _ => h x) xs (M.zip_over (fun x _ => k x) xs ys) = M.zip_over (fun x _ => h x) xs ys.
Proof. induction xs as [|x xs IH]; intros [|y ys]; cbn; auto. now rewrite IH. Qed.
Lemma map_rep : forall X Y (f : X -> Y) x k, map f (repeat x k) = repeat (f x) k.
Proof. induction k as [|k IH]; cbn; auto. now rewrite IH. Qed.
(** padding with zeros *)
Lemma skipn_rep : forall X (x : X) k n, skipn k (repeat x n) = repeat x (n - k).
Proof. induction k as [|k IH]; intros [|n]; cbn; auto. Qed.
Lemma firstn_rep : forall X (x : X) k n, (k <= n)%nat -> firstn k (repeat x n) = repeat x k.
Proof. induction k as [|k IH]; intros [|n] H; cbn; auto; try lia. rewrite IH by lia. reflexivity. Qed.
Lemma zip_over_app : forall X (xs ys : list X), (length xs <= length ys)%nat ->
  M.zip_over (fun x _ => x) xs ys = xs ++ skipn (length xs) ys.
Proof. induction xs as [|x xs IH]; intros [|y ys] H; cbn in *; auto; try lia. rewrite IH by lia. reflexivity. Qed.
Lemma zip_over_zeros : forall n (xs : list Z), (length xs <= n)%nat ->
  M.zip_over (fun x _ => x) xs (repeat 0 n) = firstn n (xs ++ repeat 0 n).
Proof.
  intros n xs H. rewrite zip_over_app by (rewrite repeat_length; auto).
  rewrite skipn_rep, firstn_app, firstn_all2, firstn_rep by lia. reflexivity.
Qed.

Section Client.
Context {pb fu GL KL SL Src : Type}.
Variable A : G.alg (list Z) pb fu.
Variable sp : space GL KL SL.
Variable garbage : Z -> nat -> list Z.
Variable garbage_i64 : Z -> nat -> int I64.
Variable gl_n : GL -> Z.
Variable enc : Z -> list Z -> list Z.
Variable dec : Z -> list Z -> list Z.
Variable next : Src -> Src.
Let L : library := lib A sp garbage garbage_i64 gl_n enc dec next.
Notation log := (G.log_n A).
Notation ba_of := (ba_of A sp garbage garbage_i64 gl_n enc dec next).
Notation mem_of := (mem_of A sp garbage garbage_i64 gl_n enc dec next).

(** ** allocation *)
Lemma div_ceil_eq : forall a b c, Verif.Word.div_ceil a b = Some c ->
  RustIter.div_ceil (@Int USize (Z.of_nat a)) (Int (Z.of_nat b)) = Some (Int (Z.of_nat c)).
Proof.
  intros a [|b] c H; [discriminate|]. assert (C : c = Nat.div (a + b) (Datatypes.S b)) by (unfold Verif.Word.div_ceil in H; congruence). rewrite C. clear H C c.
  replace ((a + b) / Datatypes.S b)%nat with (Par.chunk_size (Datatypes.S b) a).
  - apply div_ceil_text. lia.
  - unfold Par.chunk_size. f_equal. lia.
Qed.
Lemma bit_len_text : forall p size k, Z.of_nat size < b64 -> Verif.Word.bit_len_pred (Z.of_nat size) = Some k ->
  exists t6 t7, sub p (@Int USize (Z.of_nat size)) (lit 1) = Some t6 /\
    sub p (bits_of USize) (RustIter.leading_zeros t6) = Some t7 /\ cast USize t7 = Int (Z.of_nat k).
Proof.
  intros p size k B H. unfold Verif.Word.bit_len_pred in H.
  destruct (Z.leb_spec (Z.of_nat size) 0) as [|P]; [discriminate|]. injection H as <-.
  exists (Int (Z.of_nat size - 1)).
  set (n := Z.of_nat size) in *. clearbody n. unfold b64 in B.
  assert (LB : n <> 1 -> Z.log2 (n - 1) < 64).
  { intro. apply Z.log2_lt_pow2; [lia|]. change (2 ^ 64) with 18446744073709551616. lia. }
  assert (LP := Z.log2_nonneg (n - 1)).
  assert (E : 64 - (64 - (if n - 1 =? 0 then 0 else Z.log2 (n - 1) + 1)) = (if n =? 1 then 0 else Z.log2 (n - 1) + 1)).
  { destruct (Z.eqb_spec n 1), (Z.eqb_spec (n - 1) 0); lia. }
  exists (Int (if n =? 1 then 0 else Z.log2 (n - 1) + 1)). split; [|split].
  - apply usub. unfold b64. unfold lit. lia.
  - unfold sub, checked, bits_of, RustIter.leading_zeros, val, bits. rewrite E.
    unfold fits, least, largest.
    destruct (Z.eqb_spec n 1); rewrite (proj2 (Z.leb_le _ _)), (proj2 (Z.leb_le _ _)) by lia; reflexivity.
  - unfold cast. change (widens U32 USize) with true. cbn [val]. f_equal.
    rewrite Z2Nat.id; auto. destruct (Z.eqb_spec n 1); lia.
Qed.

Lemma alloc_text : forall p l words size, gl_n l = 2 ^ Z.of_nat log -> Z.of_nat size < b64 -> (0 < size)%nat ->
  T.Memory_alloc L p l (Int (Z.of_nat words)) (Int (Z.of_nat size)) =
  match M.mem_alloc A words size with Some m => Some (mem_of l m) | None => None end.
Proof.
  intros p l words size GN B P. unfold M.mem_alloc, M.ba_alloc.
  destruct (Verif.Word.bit_len_pred (Z.of_nat size)) as [k|] eqn:EK.
  2: { exfalso. unfold Verif.Word.bit_len_pred in EK. destruct (Z.leb_spec (Z.of_nat size) 0); [lia|discriminate]. }
  destruct (Verif.Word.div_ceil size (G.ring log)) as [c|] eqn:EC.
  2: { exfalso. unfold Verif.Word.div_ceil, G.ring in EC. destruct (2 ^ log)%nat eqn:E2; [|discriminate].
       pose proof (Nat.pow_nonzero 2 log). lia. }
  destruct (bit_len_text p size k B EK) as (t6 & t7 & S1 & S2 & S3).
  assert (BA : T.BitArray_alloc L p l (Int (Z.of_nat size)) = Some (ba_of l (M.BitArray (repeat (G.a_zero A) c) k))).
  { unfold T.BitArray_alloc.
    change (GLWELayout_n L l) with (@Int USize (gl_n l)).
    rewrite GN. replace (2 ^ Z.of_nat log) with (Z.of_nat (G.ring log)) by (unfold G.ring; now rewrite Nat2Z.inj_pow).
    rewrite (div_ceil_eq _ _ _ EC). unfold collect_range.
    rewrite collect_const, counting_map, map_length, seq_length. unfold lit, val at 1 2. rewrite Z.sub_0_r, Nat2Z.id.
    unfold lit in S1. rewrite S1, S2, S3. unfold TextMemFacts.ba_of. cbn [M.ba_data M.ba_bits].
    do 2 f_equal. change (GLWE_alloc_from_infos L l) with (l, G.a_zero A).
    symmetry. exact (map_rep _ _ (pair l) (G.a_zero A) c). }
  unfold T.Memory_alloc. rewrite BA. unfold collect_range.
  rewrite collect_const, counting_map, map_length, seq_length. unfold lit, val at 1 2. rewrite Z.sub_0_r, Nat2Z.id.
  unfold lit in S1. rewrite S1, S2, S3. unfold TextMemFacts.mem_of. cbn [M.m_planes M.m_size M.m_bits M.m_state].
  do 2 f_equal. symmetry. apply map_rep.
Qed.

(** ** encryption *)
Hypothesis ENC : forall x, enc 2 x = x.
Hypothesis DEC : forall x, dec 2 x = x.
Notation n := (G.ring log).

Fixpoint advance (k : nat) (s : Src) : Src :=
  match k with O => s | Datatypes.S j => advance j (next s) end.
Lemma advance_S : forall k s, advance k (next s) = advance (Datatypes.S k) s.
Proof. reflexivity. Qed.
Lemma advance_add : forall k j s, advance j (advance k s) = advance (k + j) s.
Proof. induction k as [|k IH]; intros j s; cbn; auto. Qed.

(** the encryptions a plane of a memory of [size] words takes *)
Definition plane_chunks (size : nat) (b : M.bitarray (list Z)) : nat :=
  Nat.min (length (Par.chunks_of size n (repeat 0 size))) (length (M.ba_data b)).
Lemma chunks_len_same : forall X Y f c (xs : list X) (ys : list Y), length xs = length ys ->
  length (Par.chunks_of f c xs) = length (Par.chunks_of f c ys).
Proof.
  intros X Y f c. induction f as [|f IH]; intros [|x xs] [|y ys] H; cbn in H; try discriminate; auto.
  cbn [Par.chunks_of length]. f_equal. apply IH. rewrite !skipn_length. cbn [length]. lia.
Qed.
Lemma chunk_short : forall X f c (xs : list X) ch, In ch (Par.chunks_of f c xs) -> (length ch <= c)%nat.
Proof.
  intros X f c. induction f as [|f IH]; intros [|x xs] ch H; try (cbn in H; contradiction).
  cbn [Par.chunks_of] in H. destruct H as [<-|H]; [rewrite firstn_length; lia|]. eapply IH; eauto.
Qed.
Lemma fill_zeros : forall (d : list (int I64)), RustIter.fill d (lit 0) = map Int (repeat 0 (length d)).
Proof. induction d as [|x d IH]; cbn; auto. unfold RustIter.fill in IH. now rewrite IH. Qed.

Lemma plane_encrypt : forall p l b bits xa xe avail, M.ba_data b <> [] ->
  Forall (fun x => 0 <= x < 256) bits ->
  0 <= s_plain sp l -> 0 <= s_encrypt sp l ->
  s_plain sp l + 8 * 2 ^ Z.of_nat log + s_encrypt sp l <= avail ->
  T.BitArray_encrypt_sk L p (ba_of l b) tt (map Int bits) tt xa xe avail =
  Some (ba_of l (M.ba_encrypt log b bits), advance (plane_chunks (length bits) b) xa, advance (plane_chunks (length bits) b) xe).
Proof.
  intros p l b bits xa xe avail NE BY P1 P2 SP.
  assert (PN : 0 < 2 ^ Z.of_nat log) by (apply Z.pow_pos_nonneg; lia).
  unfold T.BitArray_encrypt_sk. unfold TextMemFacts.ba_of. cbn [T.BitArray_data].
  destruct (M.ba_data b) as [|x0 xs0] eqn:ED; [congruence|]. rewrite <- ED. rewrite index0. rewrite ED at 1. cbn [map nth_error].
  change (Scratch_take_glwe_plaintext L avail (GLWE_glwe_layout L (l, x0)))
    with (given avail (s_plain sp l) (Some (garbage avail 0%nat, avail - s_plain sp l))).
  unfold given. rewrite (proj2 (Z.leb_le _ _)) by lia.
  change (Module_n L tt) with (@Int USize (2 ^ Z.of_nat log)).
  set (s1 := avail - s_plain sp l).
  change (Scratch_take_slice L s1 (Int (2 ^ Z.of_nat log)))
    with (given s1 (8 * 2 ^ Z.of_nat log) (Some (map (garbage_i64 s1) (seq 0 (Z.to_nat (2 ^ Z.of_nat log))), s1 - 8 * 2 ^ Z.of_nat log))).
  unfold given. rewrite (proj2 (Z.leb_le _ _)) by (unfold s1; lia).
  unfold chunks, val at 1 2. rewrite (proj2 (Z.eqb_neq _ _)) by lia.
  replace (Z.to_nat (2 ^ Z.of_nat log)) with n by (unfold G.ring; rewrite <- (Nat2Z.id (2 ^ log)); f_equal; rewrite Nat2Z.inj_pow; reflexivity).
  rewrite map_length, pieces_map, pieces_chunks.
  set (s2 := s1 - 8 * 2 ^ Z.of_nat log).
  assert (S2 : s_encrypt sp l <= s2) by (unfold s2, s1; lia).
  match goal with |- match for_mut _ ?body _ with _ => _ end = _ => set (bd := body) end.
  assert (LOOP : forall chs cts xa xe pt d, length d = n -> Forall (fun ch => (length ch <= n)%nat /\ Forall (fun x => 0 <= x < 256) ch) chs ->
    exists t pt' d', for_mut (combine (map (map Int) chs) (map (pair l) cts)) bd (xa, xe, pt, d) =
      Some (t, (advance (Nat.min (length chs) (length cts)) xa, advance (Nat.min (length chs) (length cts)) xe, pt', d')) /\
      write_back (map (pair l) cts) (map (fun x => snd x) t) = map (pair l) (M.zip_over (fun c _ => M.pad log c) chs cts)).
  { clear - ENC S2. induction chs as [|ch chs IH]; intros [|ct cts] xa xe pt d LD F.
    - exists [], pt, d. auto.
    - exists [], pt, d. split; reflexivity.
    - exists [], pt, d. split; reflexivity.
    - apply Forall_cons_iff in F. destruct F as [[LC FC] F]. cbn [map combine for_mut].
      set (d1 := RustIter.fill d (lit 0)).
      assert (D1 : d1 = map Int (repeat 0 n)) by (unfold d1; rewrite fill_zeros, LD; reflexivity).
      unfold bd at 1. fold d1.
      match goal with |- context[for_mut (combine d1 _) ?b0 tt] =>
        destruct (zip_fst _ _ b0 (fun (x : int U8) (_ : int I64) => cast I64 x) (map Int ch) d1) as (t8 & E8 & W8); [reflexivity|] end.
      rewrite E8. rewrite W8.
      assert (D2 : M.zip_over (fun (x : int U8) (_ : int I64) => cast I64 x) (map Int ch) d1 = map Int (M.pad log ch)).
      { rewrite D1. rewrite (zip_over_map _ _ _ _ Int Int (fun x _ => x) (fun (x : int U8) (_ : int I64) => cast I64 x)) by (intros; reflexivity).
        rewrite zip_over_zeros by exact LC. reflexivity. }
      rewrite D2.
      change (GLWEPlaintext_encode_vec_i64 L pt (map Int (M.pad log ch)) (lit 2))
        with (Some (enc 2 (map val (map (@Int I64) (M.pad log ch))))).
      rewrite ENC, map_map. change (map (fun x => val (@Int I64 x)) (M.pad log ch)) with (map (fun x => x) (M.pad log ch)).
      rewrite map_id. cbn beta iota.
      change (GLWE_encrypt_sk L (l, ct) tt (M.pad log ch) tt xa xe s2)
        with (given s2 (s_encrypt sp l) (Some ((l, M.pad log ch), next xa, next xe))).
      unfold given. rewrite (proj2 (Z.leb_le _ _)) by lia.
      destruct (IH cts (next xa) (next xe) (M.pad log ch) (map Int (M.pad log ch))) as (t & pt' & d' & E & W).
      + rewrite map_length. unfold M.pad. rewrite firstn_length, app_length. unfold G.zero_poly. rewrite repeat_length. lia.
      + exact F.
      + rewrite E. eexists _, pt', d'. split.
        * cbn [length Nat.min]. rewrite !advance_S. reflexivity.
        * cbn [map snd M.zip_over]. unfold write_back in *. cbn [length skipn app]. f_equal. exact W. }
  destruct (LOOP (Par.chunks_of (length bits) n bits) (M.ba_data b) xa xe (garbage avail 0%nat) (map (garbage_i64 s1) (seq 0 n))) as (t & pt' & d' & E & W).
  - now rewrite map_length, seq_length.
  - apply Forall_forall. intros ch I. split; [eapply chunk_short; eauto|].
    rewrite Forall_forall in BY |- *. intros x Ix. apply BY.
    rewrite <- (concat_pieces _ n ltac:(unfold G.ring; pose proof (Nat.pow_nonzero 2 log); lia) (length bits) bits ltac:(lia)).
    rewrite pieces_chunks. apply in_concat. eauto.
  - match goal with |- match ?e with _ => _ end = _ => match type of E with ?e' = _ => change e with e' end end.
    rewrite E. unfold T.set_BitArray_data. cbn [T.BitArray_data T.BitArray_retriever T.BitArray_bit_size].
    unfold M.ba_encrypt. cbn [M.ba_data M.ba_bits]. unfold plane_chunks.
    rewrite (chunks_len_same _ _ (length bits) n (repeat 0 (length bits)) bits) by apply repeat_length.
    do 4 f_equal. exact W.
Qed.

Lemma index_app : forall X (xs ys : list X) y, index (xs ++ y :: ys) (Int (Z.of_nat (length xs))) = Some y.
Proof. intros. unfold index, val. rewrite Nat2Z.id, nth_error_app2, Nat.sub_diag; auto. Qed.
Lemma store_app : forall X (xs ys : list X) y z, store (xs ++ y :: ys) (Int (Z.of_nat (length xs))) z = Some (xs ++ z :: ys).
Proof.
  intros X xs ys y z. unfold store, val. rewrite Nat2Z.id. induction xs as [|x xs IH]; cbn; auto. now rewrite IH.
Qed.
Lemma zip_over_Forall : forall X Y (P : Y -> Prop) (h : X -> Y -> Y) xs ys, (forall x y, P (h x y)) ->
  Forall P ys -> Forall P (M.zip_over h xs ys).
Proof.
  intros X Y P h xs. induction xs as [|x xs IH]; intros [|y ys] H F; cbn; auto.
  apply Forall_cons_iff in F. destruct F. constructor; auto.
Qed.
Lemma check_text : forall a b c, (0 < b)%nat ->
  div (@Int USize (Z.of_nat a)) (Int (Z.of_nat b)) = Some (Int (Z.of_nat (a / b))) /\
  le (@Int USize (Z.of_nat (a / b))) (Int (Z.of_nat c)) = (a / b <=? c)%nat.
Proof.
  intros a b c H. split.
  - unfold div, div_ok, val. cbn [is_signed andb negb]. rewrite (proj2 (Z.eqb_neq _ _)) by lia. cbn [negb andb].
    rewrite Z.quot_div_nonneg by lia. now rewrite Nat2Z.inj_div.
  - unfold le, val. set (q := (a / b)%nat). destruct (Z.leb_spec (Z.of_nat q) (Z.of_nat c)), (Nat.leb_spec q c); auto; lia.
Qed.

Notation bit_at i := (fun (y : Z) (_ : Z) => Z.b2z (Z.testbit y (Z.of_nat i))).

Lemma encrypt_text : forall p l m data xa xe avail,
  Forall (fun b => M.ba_data b <> []) (M.m_planes m) ->
  0 <= s_plain sp l -> 0 <= s_encrypt sp l ->
  s_plain sp l + 8 * 2 ^ Z.of_nat log + s_encrypt sp l <= avail ->
  T.Memory_encrypt_sk L p (mem_of l m) tt (map Int data) tt xa xe avail =
  match M.mem_encrypt log m data with
  | Some m' => Some (mem_of l m', advance (list_sum (map (plane_chunks (M.m_size m)) (M.m_planes m))) xa,
                     advance (list_sum (map (plane_chunks (M.m_size m)) (M.m_planes m))) xe)
  | None => None
  end.
Proof.
  intros p l m data xa xe avail NE P1 P2 SP.
  unfold T.Memory_encrypt_sk, TextMemFacts.mem_of. cbn [T.Memory_size T.Memory_bits].
  unfold len. rewrite !map_length. unfold M.mem_encrypt.
  set (np := length (M.m_planes m)).
  destruct (Nat.ltb_spec 0 np) as [PP|PP].
  2: { replace np with 0%nat by lia. reflexivity. }
  destruct (check_text (length data) np (M.m_size m) PP) as [C1 C2]. rewrite C1, C2.
  destruct (length data / np <=? M.m_size m)%nat; [|reflexivity]. clear C1 C2 PP.
  unfold filled, for_range, lit, val at 1 2 3. rewrite Z.sub_0_r, !Nat2Z.id.
  match goal with |- match for_each _ ?body _ with _ => _ end = _ => set (bd := body) end.
  set (size := M.m_size m) in *.
  assert (LOOP : forall bs ds B xa xe, Forall (fun b => M.ba_data b <> []) bs ->
    length B = size -> Forall (fun x => 0 <= x < 256) B ->
    (forall i, M.zip_over (bit_at i) data B = M.zip_over (bit_at i) data (repeat 0 size)) ->
    exists B', for_each (counting (length bs) (Z.of_nat (length ds))) bd
      (T.mk_Memory (map (ba_of l) (ds ++ bs)) (Int (Z.of_nat size)) (Int (Z.of_nat (M.m_bits m))) (M.m_state m), xa, xe, map Int B) =
      Some (T.mk_Memory (map (ba_of l) (ds ++
              map (fun ib => M.ba_encrypt log (snd ib) (M.zip_over (bit_at (fst ib)) data (repeat 0 size)))
                (combine (seq (length ds) (length bs)) bs))) (Int (Z.of_nat size)) (Int (Z.of_nat (M.m_bits m))) (M.m_state m),
            advance (list_sum (map (plane_chunks size) bs)) xa, advance (list_sum (map (plane_chunks size) bs)) xe, B')).
  { clear - ENC P1 P2 SP. induction bs as [|b bs IH]; intros ds B xa xe F LB BB HB.
    - exists (map Int B). cbn. rewrite app_nil_r. reflexivity.
    - apply Forall_cons_iff in F. destruct F as [F1 F]. cbn [length counting for_each].
      unfold bd at 1. cbn [T.Memory_bits].
      match goal with |- context[for_mut (combine _ _) ?b0 tt] =>
        destruct (zip_fst _ _ b0 (fun (y : int U32) (_ : int U8) => u32_bit L y (Int (Z.of_nat (length ds)))) (map Int data) (map Int B)) as (t4 & E4 & W4); [reflexivity|] end.
      rewrite E4, W4.
      rewrite (zip_over_map _ _ _ _ Int Int (bit_at (length ds)) (fun (y : int U32) (_ : int U8) => u32_bit L y (Int (Z.of_nat (length ds)))) ltac:(reflexivity)).
      rewrite HB. set (B1 := M.zip_over (bit_at (length ds)) data (repeat 0 size)).
      rewrite map_app. cbn [map]. rewrite <- (map_length (ba_of l) ds). rewrite index_app. 
      assert (BB1 : Forall (fun x => 0 <= x < 256) B1).
      { apply zip_over_Forall; [intros x y; destruct (Z.testbit x (Z.of_nat (length ds))); cbn; lia|].
        apply Forall_forall. intros x I. apply repeat_spec in I. lia. }
      assert (LB1 : length B1 = size) by (unfold B1; rewrite zip_over_len, repeat_length; reflexivity).
      rewrite (plane_encrypt p l b B1 xa xe avail F1 BB1 P1 P2 SP). rewrite store_app, LB1.
      unfold T.set_Memory_bits. cbn [T.Memory_size T.Memory_bit_size T.Memory_state].
      destruct (IH (ds ++ [M.ba_encrypt log b B1]) B1 (advance (plane_chunks size b) xa) (advance (plane_chunks size b) xe) F LB1 BB1) as (B' & E).
      { intro i. unfold B1. apply (zip_over_again _ _ (fun y => Z.b2z (Z.testbit y (Z.of_nat i))) (fun y => Z.b2z (Z.testbit y (Z.of_nat (length ds))))). }
      exists B'.
      rewrite app_length in E. cbn [length] in E.
      replace (Z.of_nat (length (map (ba_of l) ds)) + 1) with (Z.of_nat (length ds + 1)) by (rewrite map_length; lia).
      replace (map (ba_of l) ds ++ ba_of l (M.ba_encrypt log b B1) :: map (ba_of l) bs)
        with (map (ba_of l) ((ds ++ [M.ba_encrypt log b B1]) ++ bs)) by (rewrite !map_app; cbn [map]; rewrite <- app_assoc; reflexivity).
      etransitivity; [exact E|]. rewrite !advance_add. rewrite map_length.
      cbn [map list_sum fold_right combine seq fst snd]. fold B1.
      rewrite <- app_assoc. cbn [app]. replace (length ds + 1)%nat with (Datatypes.S (length ds)) by lia. reflexivity. }
  destruct (LOOP (M.m_planes m) [] (repeat 0 size) xa xe NE) as (B' & E).
  - apply repeat_length.
  - apply Forall_forall. intros x I. apply repeat_spec in I. lia.
  - reflexivity.
  - cbn [app length] in E. rewrite map_rep in E. change (Z.of_nat 0) with 0 in E. unfold np.
    replace (Z.to_nat (val (@Int USize (Z.of_nat size)))) with size by (unfold val; now rewrite Nat2Z.id).
    match goal with |- match ?e with _ => _ end = _ => match type of E with ?e' = _ => change e with e' end end.
    rewrite E. reflexivity.
Qed.

(** ** decryption *)
(** a bit as the text holds it: the coefficient's last byte *)
Definition byte_of (x : Z) : int U8 := cast U8 (@Int I64 x).
Definition small (x : Z) : Prop := -255 < x < 257.
Lemma byte_one : forall x, small x -> eq (byte_of x) (lit 1) = (x =? 1).
Proof.
  intros x H. unfold small in H. unfold byte_of, cast. change (widens I64 U8) with false. cbn beta iota.
  unfold eq, val, lit, wrap. cbn [is_signed card].
  destruct (Z.eqb_spec x 1) as [->|N]; [reflexivity|]. apply Z.eqb_neq.
  intro E. pose proof (Z.div_mod x 256 ltac:(lia)). assert (-1 <= x / 256 <= 1) by (split; [apply Z.div_le_lower_bound | apply Z.div_le_upper_bound]; lia). lia.
Qed.
Lemma firstn_map_len : forall X (xs : list X) k, length xs = k -> firstn k xs = xs.
Proof. intros X xs k <-. apply firstn_all. Qed.

Lemma plane_decrypt : forall p l b (out : list Z) avail, M.ba_data b <> [] ->
  Forall (fun q => length q = n) (M.ba_data b) ->
  0 <= s_plain sp l -> 0 <= s_decrypt sp l ->
  s_plain sp l + 8 * 2 ^ Z.of_nat log + s_decrypt sp l <= avail ->
  T.BitArray_decrypt L p (ba_of l b) tt (map byte_of out) tt avail = Some (map byte_of (M.ba_decrypt b out)).
Proof.
  intros p l b out avail NE LN P1 P2 SP.
  assert (PN : 0 < 2 ^ Z.of_nat log) by (apply Z.pow_pos_nonneg; lia).
  assert (NP : (0 < n)%nat) by (unfold G.ring; pose proof (Nat.pow_nonzero 2 log); lia).
  unfold T.BitArray_decrypt. unfold TextMemFacts.ba_of. cbn [T.BitArray_data].
  destruct (M.ba_data b) as [|x0 xs0] eqn:ED; [congruence|]. rewrite <- ED in LN |- *. rewrite index0. rewrite ED at 1. cbn [map nth_error].
  change (Scratch_take_glwe_plaintext L avail (GLWE_glwe_layout L (l, x0)))
    with (given avail (s_plain sp l) (Some (garbage avail 0%nat, avail - s_plain sp l))).
  unfold given. rewrite (proj2 (Z.leb_le _ _)) by lia.
  change (Module_n L tt) with (@Int USize (2 ^ Z.of_nat log)).
  set (s1 := avail - s_plain sp l).
  change (Scratch_take_slice L s1 (Int (2 ^ Z.of_nat log)))
    with (given s1 (8 * 2 ^ Z.of_nat log) (Some (map (garbage_i64 s1) (seq 0 (Z.to_nat (2 ^ Z.of_nat log))), s1 - 8 * 2 ^ Z.of_nat log))).
  unfold given. rewrite (proj2 (Z.leb_le _ _)) by (unfold s1; lia).
  unfold chunks, val at 1 2. rewrite (proj2 (Z.eqb_neq _ _)) by lia.
  replace (Z.to_nat (2 ^ Z.of_nat log)) with n by (unfold G.ring; rewrite <- (Nat2Z.id (2 ^ log)); f_equal; rewrite Nat2Z.inj_pow; reflexivity).
  rewrite map_length, pieces_map.
  set (s2 := s1 - 8 * 2 ^ Z.of_nat log).
  assert (S2 : s_decrypt sp l <= s2) by (unfold s2, s1; lia).
  match goal with |- match for_mut _ ?body _ with _ => _ end = _ => set (bd := body) end.
  assert (LOOP : forall cts fuel out pt d, (length out <= fuel)%nat -> length d = n -> Forall (fun q => length q = n) cts ->
    exists t st, for_mut (combine (map (map byte_of) (pieces fuel n out)) (map (pair l) cts)) bd (pt, d) = Some (t, st) /\
      write_back (map byte_of out) (concat (map (fun x => fst x) t)) = map byte_of (M.zip_over (fun x _ => x) (concat cts) out)).
  { clear - DEC S2 NP. induction cts as [|ct cts IH]; intros fuel out pt d LF LD F.
    - destruct fuel, out; cbn [pieces map combine for_mut]; exists [], (pt, d); split; reflexivity.
    - apply Forall_cons_iff in F. destruct F as [F1 F].
      destruct fuel as [|fuel]; [destruct out; [|cbn in LF; lia]; exists [], (pt, d); split; [reflexivity|]; destruct (concat (ct :: cts)); reflexivity|].
      destruct out as [|o out'] eqn:EO.
      { exists [], (pt, d). split; [reflexivity|]. destruct (concat (ct :: cts)); reflexivity. }
      rewrite <- EO in *. assert (PE : pieces (Datatypes.S fuel) n out = firstn n out :: pieces fuel n (skipn n out)) by (rewrite EO; reflexivity).
      rewrite PE. cbn [map combine for_mut]. unfold bd at 1.
      change (GLWE_decrypt L (l, ct) tt pt tt s2) with (given s2 (s_decrypt sp l) (Some ct)).
      unfold given. rewrite (proj2 (Z.leb_le _ _)) by lia.
      change (GLWEPlaintext_decode_vec_i64 L ct d (lit 2)) with (Some (firstn (length d) (map (@Int I64) (dec 2 ct)))).
      rewrite DEC. rewrite firstn_map_len by (rewrite map_length; congruence).
      match goal with |- context[for_mut (combine (map Int ct) _) ?b0 tt] =>
        destruct (zip_snd _ _ b0 (fun (y : int I64) (_ : int U8) => cast U8 y) (map Int ct) (map byte_of (firstn n out))) as (t10 & E10 & W10); [reflexivity|] end.
      rewrite E10, W10.
      rewrite (zip_over_map _ _ _ _ Int byte_of (fun x _ => x) (fun (y : int I64) (_ : int U8) => cast U8 y)) by (intros; reflexivity).
      destruct (IH fuel (skipn n out) ct (map Int ct)) as (t & st & E & W).
      + rewrite skipn_length. lia.
      + rewrite map_length. auto.
      + auto.
      + rewrite E. eexists _, st. split; [reflexivity|]. cbn [map fst concat].
        rewrite <- (firstn_skipn n out) at 1. rewrite map_app.
        set (h := M.zip_over (fun x _ => x) ct (firstn n out)).
        assert (LH : length h = length (firstn n out)) by apply zip_over_len.
        assert (SPL : M.zip_over (fun x _ => x) (ct ++ concat cts) out = h ++ M.zip_over (fun x _ => x) (concat cts) (skipn n out)).
        { unfold h. clear -F1. revert out. rewrite <- F1. clear F1. induction ct as [|c ct IH]; intro out.
          - cbn. reflexivity.
          - destruct out as [|o out]; cbn; [destruct (concat cts); reflexivity|]. now rewrite IH. }
        rewrite SPL, map_app. unfold write_back in *. rewrite <- app_assoc. f_equal. rewrite <- W. f_equal.
        rewrite app_length, map_length, LH. rewrite <- (map_length byte_of (firstn n out)).
        rewrite skipn_app. rewrite (skipn_all2 (map byte_of (firstn n out))) by lia. cbn [app]. f_equal. lia. }
  destruct (LOOP (M.ba_data b) (length out) out (garbage avail 0%nat) (map (garbage_i64 s1) (seq 0 n))) as (t & st & E & W).
  - lia.
  - now rewrite map_length, seq_length.
  - exact LN.
  - match goal with |- match ?e with _ => _ end = _ => match type of E with ?e' = _ => change e with e' end end.
    rewrite E. destruct st. f_equal. exact W.
Qed.

Definition word (y : Z) : Prop := 0 <= y < 4294967296.
Lemma shl_one : forall p i, 0 <= i < 32 -> shl p (@Int U32 1) (@Int USize i) = Some (Int (Z.shiftl 1 i)).
Proof.
  intros p i H. unfold shl, amount, val. cbn [bits].
  rewrite (proj2 (Z.leb_le _ _)), (proj2 (Z.ltb_lt _ _)) by lia. cbn [andb]. do 2 f_equal.
  unfold wrap. cbn [is_signed card]. apply Z.mod_small.
  rewrite Z.shiftl_1_l. split; [apply Z.pow_nonneg; lia|]. change 4294967296 with (2 ^ 32). apply Z.pow_lt_mono_r; lia.
Qed.
Lemma set_text : forall y i, bor (@Int U32 y) (Int (Z.shiftl 1 i)) = Int (Z.setbit y i).
Proof. intros. unfold bor, val, Z.setbit. reflexivity. Qed.
Lemma clear_text : forall y i, word y -> band (@Int U32 y) (bnot (Int (Z.shiftl 1 i))) = Int (Z.clearbit y i).
Proof.
  intros y i H. unfold word in H. unfold band, bnot, val, Z.clearbit. f_equal. unfold wrap. cbn [is_signed card].
  rewrite Z.ldiff_land. change 4294967296 with (2 ^ 32). rewrite <- Z.land_ones by lia.
  rewrite (Z.land_comm _ (Z.ones 32)), Z.land_assoc. f_equal.
  rewrite Z.land_ones by lia. apply Z.mod_small. change (2 ^ 32) with 4294967296. exact H.
Qed.
Lemma put_bit_word : forall i x y, (i < 32)%nat -> word y -> word (M.put_bit i x y).
Proof.
  intros i x y H W. unfold word in *. change 4294967296 with (2 ^ 32) in *. unfold M.put_bit.
  assert (B : forall z, 0 <= z -> (forall k, 32 <= k -> Z.testbit z k = false) -> 0 <= z < 2 ^ 32).
  { intros z P K. split; auto. destruct (Z.eq_dec z 0) as [->|]; [lia|]. apply Z.log2_lt_pow2; [lia|].
    destruct (Z.lt_ge_cases (Z.log2 z) 32); auto. exfalso.
    assert (Z.testbit z (Z.log2 z) = true) by (apply Z.bit_log2; lia). rewrite K in *; try lia; discriminate. }
  assert (Y : forall k, 32 <= k -> Z.testbit y k = false).
  { intros k K. destruct (Z.eq_dec y 0) as [->|]; [apply Z.testbit_0_l|]. apply Z.bits_above_log2; [lia|].
    assert (Z.log2 y < 32) by (apply Z.log2_lt_pow2; lia). lia. }
  destruct (x =? 1); apply B.
  - unfold Z.setbit. apply Z.lor_nonneg. split; [lia|]. apply Z.shiftl_nonneg. lia.
  - intros k K. rewrite Z.setbit_eqb by lia. rewrite Y by lia. rewrite (proj2 (Z.eqb_neq _ _)) by lia. reflexivity.
  - unfold Z.clearbit. apply Z.ldiff_nonneg. left. lia.
  - intros k K. rewrite Z.clearbit_eqb. rewrite Y by lia. reflexivity.
Qed.
Lemma zip_over_Forall2 : forall X Y (Q : X -> Prop) (P : Y -> Prop) (h : X -> Y -> Y) xs ys,
  (forall x y, Q x -> P y -> P (h x y)) -> Forall Q xs -> Forall P ys -> Forall P (M.zip_over h xs ys).
Proof.
  intros X Y Q P h xs. induction xs as [|x xs IH]; intros [|y ys] H F F'; cbn; auto.
  apply Forall_cons_iff in F. apply Forall_cons_iff in F'. destruct F, F'. constructor; auto.
Qed.

Lemma decrypt_text : forall p l m data avail,
  (length (M.m_planes m) <= 32)%nat ->
  Forall (fun b => M.ba_data b <> [] /\ Forall (fun q => length q = n /\ Forall small q) (M.ba_data b)) (M.m_planes m) ->
  Forall word data ->
  0 <= s_plain sp l -> 0 <= s_decrypt sp l ->
  s_plain sp l + 8 * 2 ^ Z.of_nat log + s_decrypt sp l <= avail ->
  T.Memory_decrypt L p (mem_of l m) tt (map Int data) tt avail =
  match M.mem_decrypt m data with Some d => Some (map Int d) | None => None end.
Proof.
  intros p l m data avail P32 NE WD P1 P2 SP.
  unfold T.Memory_decrypt, TextMemFacts.mem_of. cbn [T.Memory_size T.Memory_bits].
  unfold len. rewrite !map_length. unfold M.mem_decrypt.
  set (np := length (M.m_planes m)) in *.
  destruct (Nat.ltb_spec 0 np) as [PP|PP].
  2: { replace np with 0%nat by lia. reflexivity. }
  destruct (check_text (length data) np (M.m_size m) PP) as [C1 C2]. rewrite C1, C2.
  destruct (length data / np <=? M.m_size m)%nat; [|reflexivity]. clear C1 C2 PP.
  unfold filled, for_range. 
  match goal with |- match for_each _ ?body _ with _ => _ end = _ => set (bd := body) end.
  unfold lit, val. rewrite Z.sub_0_r, !Nat2Z.id.
  set (size := M.m_size m) in *.
  set (step := fun (st : list Z * list Z) (ib : nat * M.bitarray (list Z)) =>
       (M.ba_decrypt (snd ib) (fst st), M.zip_over (M.put_bit (fst ib)) (M.ba_decrypt (snd ib) (fst st)) (snd st))).
  assert (LOOP : forall bs ds B D, M.m_planes m = ds ++ bs -> (length ds + length bs <= 32)%nat ->
    Forall (fun b => M.ba_data b <> [] /\ Forall (fun q => length q = n /\ Forall small q) (M.ba_data b)) bs ->
    Forall small B -> Forall word D ->
    for_each (counting (length bs) (Z.of_nat (length ds))) bd (map Int D, map byte_of B) =
    Some (map Int (snd (fold_left step (combine (seq (length ds) (length bs)) bs) (B, D))),
          map byte_of (fst (fold_left step (combine (seq (length ds) (length bs)) bs) (B, D))))).
  { clear - DEC P1 P2 SP. induction bs as [|b bs IH]; intros ds B D EP LE F SB WD.
    - reflexivity.
    - apply Forall_cons_iff in F. destruct F as [[F1 F2] F]. cbn [length counting for_each] in *.
      unfold bd at 1. cbv beta iota.
      assert (IX : index (map (ba_of l) (M.m_planes m)) (Int (Z.of_nat (length ds))) = Some (ba_of l b)).
      { rewrite EP, map_app. cbn [map]. rewrite <- (map_length (ba_of l) ds). apply index_app. }
      match goal with |- context[index ?x ?y] => change (index x y) with (index (map (ba_of l) (M.m_planes m)) (@Int USize (Z.of_nat (length ds)))) end.
      rewrite IX.
      assert (LQ : Forall (fun q => length q = n) (M.ba_data b)) by (eapply Forall_impl; [|exact F2]; cbn; tauto).
      rewrite (plane_decrypt p l b B avail F1 LQ P1 P2 SP).
      set (B1 := M.ba_decrypt b B).
      assert (SB1 : Forall small B1).
      { unfold B1, M.ba_decrypt. apply (zip_over_Forall2 _ _ small small); auto.
        apply Forall_forall. intros x I. apply in_concat in I. destruct I as (q & Iq & Ix).
        rewrite Forall_forall in F2. destruct (F2 q Iq) as [_ F3]. rewrite Forall_forall in F3. auto. }
      assert (SHL : forall p, shl p (@lit U32 1) (@Int USize (Z.of_nat (length ds))) = Some (Int (Z.shiftl 1 (Z.of_nat (length ds))))).
      { intro p0. apply shl_one. lia. }
      match goal with |- context[for_mut (combine _ _) ?b0 tt] =>
        destruct (zip_snd _ _ b0 (fun (x : int U8) (y : int U32) =>
            if eq x (lit 1) then bor y (Int (Z.shiftl 1 (Z.of_nat (length ds))))
            else band y (bnot (Int (Z.shiftl 1 (Z.of_nat (length ds)))))) (map byte_of B1) (map Int D)) as (t6 & E6 & W6) end.
      { intros x y _ _. rewrite SHL. destruct (eq x (lit 1)); reflexivity. }
      rewrite E6, W6.
      assert (Z1 : forall BB DD, Forall small BB -> Forall word DD ->
         M.zip_over (fun (x : int U8) (y : int U32) =>
            if eq x (lit 1) then bor y (Int (Z.shiftl 1 (Z.of_nat (length ds))))
            else band y (bnot (Int (Z.shiftl 1 (Z.of_nat (length ds)))))) (map byte_of BB) (map Int DD) =
         map Int (M.zip_over (M.put_bit (length ds)) BB DD)).
      { induction BB as [|x BB IHB]; intros [|y DD] S1 S2; cbn [map M.zip_over]; auto.
        apply Forall_cons_iff in S1. apply Forall_cons_iff in S2. destruct S1, S2. rewrite IHB by auto.
        f_equal. rewrite byte_one by auto. unfold M.put_bit. rewrite clear_text, set_text by auto. destruct (x =? 1); reflexivity. }
      rewrite Z1 by auto.
      specialize (IH (ds ++ [b]) B1 (M.zip_over (M.put_bit (length ds)) B1 D)).
      rewrite app_length in IH. cbn [length] in IH.
      replace (Z.of_nat (length ds) + 1) with (Z.of_nat (length ds + 1)) by lia.
      rewrite IH.
      + cbn [combine seq fold_left fst snd]. unfold step at 3 4. cbn [fst snd]. fold B1.
        replace (length ds + 1)%nat with (Datatypes.S (length ds)) by lia. reflexivity.
      + rewrite <- app_assoc. exact EP.
      + lia.
      + exact F.
      + exact SB1.
      + apply (zip_over_Forall2 _ _ small word); auto. intros x y _ W. apply put_bit_word; auto. lia. }
  specialize (LOOP (M.m_planes m) [] (repeat 0 size) data eq_refl). cbn [length Nat.add] in LOOP.
  change (Z.of_nat 0) with 0 in LOOP. fold np in LOOP.
  assert (SZ : Forall small (repeat 0 size)) by (apply Forall_forall; intros x I; apply repeat_spec in I; subst x; unfold small; lia).
  specialize (LOOP P32 NE SZ WD). rewrite map_rep in LOOP. change (byte_of 0) with (@Int U8 0) in LOOP.
  match goal with |- match ?e with _ => _ end = _ => match type of LOOP with ?e' = _ => change e with e' end end.
  rewrite LOOP. reflexivity.
Qed.
End Client.
