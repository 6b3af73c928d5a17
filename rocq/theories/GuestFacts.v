(** * Lemmas about the [repr(C)] layout and the tapes of [Guests.v] *)
Require Import ZArith List Bool Lia Arith.
Require Import Verif.Word Verif.Guests Verif.GuestSpec.
Import ListNotations.
Open Scope nat_scope.

(** Induction on types, through the field lists. *)
Lemma ty_rect2 : forall P : ty -> Prop,
  P TBool -> P TU8 -> P TU32 -> P TUsize ->
  (forall n t, P t -> P (TArr n t)) ->
  (forall fs, Forall P fs -> P (TStruct fs)) ->
  forall t, P t.
Proof.
  intros P h1 h2 h3 h4 h5 h6. fix IH 1. intros t. destruct t.
  - exact h1.
  - exact h2.
  - exact h3.
  - exact h4.
  - apply h5. apply IH.
  - apply h6. induction fs as [|f r IHr].
    + constructor.
    + constructor; [apply IH | exact IHr].
Qed.

(** ** The inner recursions by name *)
Fixpoint align_fields (w : nat) (l : list ty) : nat :=
  match l with [] => 1 | f :: r => Nat.max (align w f) (align_fields w r) end.
Fixpoint fields_end (w pos : nat) (l : list ty) : nat :=
  match l with
  | [] => pos
  | f :: r => fields_end w (round_up pos (align w f) + size w f) r
  end.
Fixpoint typed_fields (w : nat) (l : list ty) (xs : list value) : Prop :=
  match l, xs with
  | [], [] => True
  | f :: r, x :: ys => typed w f x /\ typed_fields w r ys
  | _, _ => False
  end.
Fixpoint encode_fields (w : nat) (pad : nat -> Z) (p total pos : nat)
    (l : list ty) (xs : list value) : list Z :=
  match l, xs with
  | f :: r, x :: ys =>
      let q := round_up pos (align w f) in
      padding pad (p + pos) (p + q)
      ++ encode w pad (p + q) f x
      ++ encode_fields w pad p total (q + size w f) r ys
  | _, _ => padding pad (p + pos) (p + total)
  end.
Fixpoint encode_elems (w : nat) (pad : nat -> Z) (t : ty) (q : nat) (l : list value) : list Z :=
  match l with
  | [] => []
  | x :: r => encode w pad q t x ++ encode_elems w pad t (q + size w t) r
  end.
Fixpoint decode_fields (w : nat) (l : list Z) (pos : nat) (gs : list ty) : option (list value) :=
  match gs with
  | [] => Some []
  | f :: r =>
      let q := round_up pos (align w f) in
      match decode w f (skipn q l), decode_fields w l (q + size w f) r with
      | Some x, Some xs => Some (x :: xs)
      | _, _ => None
      end
  end.
Fixpoint decode_elems (w : nat) (t : ty) (k : nat) (m : list Z) : option (list value) :=
  match k with
  | O => Some []
  | S k' =>
      match decode w t m, decode_elems w t k' (skipn (size w t) m) with
      | Some x, Some r => Some (x :: r)
      | _, _ => None
      end
  end.
Fixpoint scalars_fields (w base pos : nat) (l : list ty) : list (nat * nat) :=
  match l with
  | [] => []
  | f :: r =>
      let q := round_up pos (align w f) in
      scalars w (base + q) f ++ scalars_fields w base (q + size w f) r
  end.

Lemma align_struct : forall w fs, align w (TStruct fs) = align_fields w fs.
Proof. intros w fs. cbn [align]. induction fs; cbn; congruence. Qed.
Lemma size_struct : forall w fs,
  size w (TStruct fs) = round_up (fields_end w 0 fs) (align_fields w fs).
Proof.
  intros w fs. rewrite <- align_struct. cbn [size]. f_equal.
  generalize 0 as pos. induction fs as [|f r IH]; intros pos; cbn [fields_end]; [reflexivity|].
  apply IH.
Qed.
Lemma typed_struct : forall w fs vs, typed w (TStruct fs) (VSeq vs) = typed_fields w fs vs.
Proof.
  intros w fs. cbn [typed]. induction fs as [|f r IH]; intros [|x ys]; cbn [typed_fields];
    try reflexivity. rewrite <- IH. reflexivity.
Qed.
Lemma encode_struct : forall w pad p fs vs,
  encode w pad p (TStruct fs) (VSeq vs)
  = encode_fields w pad p (size w (TStruct fs)) 0 fs vs.
Proof.
  intros w pad p fs. cbn [encode]. generalize (size w (TStruct fs)) as total. intros total.
  generalize 0 as pos. induction fs as [|f r IH]; intros pos [|x ys]; cbn [encode_fields];
    try reflexivity. rewrite <- IH. reflexivity.
Qed.
Lemma encode_arr : forall w pad p n t vs,
  encode w pad p (TArr n t) (VSeq vs) = encode_elems w pad t p vs.
Proof.
  intros w pad p n t vs. cbn [encode]. revert p.
  induction vs as [|x ys IH]; intros p; cbn [encode_elems]; [reflexivity|].
  rewrite <- IH. reflexivity.
Qed.
Lemma decode_struct : forall w fs l,
  decode w (TStruct fs) l = option_map VSeq (decode_fields w l 0 fs).
Proof.
  intros w fs l. cbn [decode]. f_equal. generalize 0 as pos.
  induction fs as [|f r IH]; intros pos; cbn [decode_fields]; [reflexivity|].
  rewrite <- IH. reflexivity.
Qed.
Lemma decode_arr : forall w n t l,
  decode w (TArr n t) l = option_map VSeq (decode_elems w t n l).
Proof.
  intros w n t l. cbn [decode]. f_equal. revert l.
  induction n as [|k IH]; intros l; cbn [decode_elems]; [reflexivity|].
  rewrite <- IH. reflexivity.
Qed.
Lemma scalars_struct : forall w base fs,
  scalars w base (TStruct fs) = scalars_fields w base 0 fs.
Proof.
  intros w base fs. cbn [scalars]. generalize 0 as pos.
  induction fs as [|f r IH]; intros pos; cbn [scalars_fields]; [reflexivity|].
  rewrite <- IH. reflexivity.
Qed.

(** ** Rounding *)
Lemma round_up_ge : forall p a, 1 <= a -> p <= round_up p a.
Proof.
  intros p a H. unfold round_up.
  pose proof (Nat.div_mod (p + (a - 1)) a ltac:(lia)).
  pose proof (Nat.mod_upper_bound (p + (a - 1)) a ltac:(lia)). nia.
Qed.
Lemma round_up_lt : forall p a, 1 <= a -> round_up p a < p + a.
Proof.
  intros p a H. unfold round_up.
  pose proof (Nat.div_mod (p + (a - 1)) a ltac:(lia)). nia.
Qed.
Lemma round_up_divide : forall p a, Nat.divide a (round_up p a).
Proof. intros p a. exists ((p + (a - 1)) / a). reflexivity. Qed.

Lemma align_pos : forall w t, 1 <= w -> 1 <= align w t.
Proof.
  intros w t Hw. induction t as [| | | | |fs IH] using ty_rect2; cbn [align]; try lia.
  change (1 <= align w (TStruct fs)). rewrite align_struct.
  induction IH; cbn [align_fields]; lia.
Qed.
Lemma align_fields_pos : forall w l, 1 <= align_fields w l.
Proof. intros w l. induction l; cbn [align_fields]; lia. Qed.

Lemma fields_end_ge : forall w l pos, 1 <= w -> pos <= fields_end w pos l.
Proof.
  intros w l. induction l as [|f r IH]; intros pos Hw; cbn [fields_end]; [lia|].
  pose proof (round_up_ge pos (align w f) (align_pos w f Hw)).
  specialize (IH (round_up pos (align w f) + size w f) Hw). lia.
Qed.

Lemma padding_length : forall pad a b, length (padding pad a b) = b - a.
Proof. intros. unfold padding. rewrite map_length, seq_length. reflexivity. Qed.

Lemma le_length : forall n z, length (le n z) = n.
Proof. induction n; intros; cbn; [reflexivity|]. rewrite IHn. reflexivity. Qed.

Lemma unle_le : forall n z, (0 <= z < 256 ^ Z.of_nat n)%Z -> unle (le n z) = z.
Proof.
  induction n as [|n IH]; intros z H.
  - cbn in *. lia.
  - cbn [le unle]. rewrite IH.
    + pose proof (Z.div_mod z 256 ltac:(lia)). lia.
    + rewrite Nat2Z.inj_succ, Z.pow_succ_r in H by lia.
      split; [apply Z.div_pos; lia|]. apply Z.div_lt_upper_bound; lia.
Qed.

(** ** Length of an encoding *)
Lemma encode_length : forall w pad t, 1 <= w -> forall p v,
  typed w t v -> length (encode w pad p t v) = size w t.
Proof.
  intros w pad t Hw. induction t as [| | | |n t IH|fs IH] using ty_rect2; intros p v Hv.
  - destruct v; cbn in *; [reflexivity|contradiction].
  - destruct v; cbn in *; [reflexivity|contradiction].
  - destruct v; cbn in *; [reflexivity|contradiction].
  - destruct v; cbn [typed encode size] in *; [apply le_length|contradiction].
  - destruct v as [z|vs]; [cbn in Hv; contradiction|].
    cbn [typed] in Hv. destruct Hv as [Hn Hv]. rewrite encode_arr. cbn [size]. subst n.
    revert p. induction Hv as [|x r Hx Hr IHr]; intros p; cbn [encode_elems length]; [reflexivity|].
    rewrite app_length, IH, IHr by assumption. cbn. lia.
  - destruct v as [z|vs]; [cbn in Hv; contradiction|].
    rewrite typed_struct in Hv. rewrite encode_struct.
    assert (Htot : fields_end w 0 fs <= size w (TStruct fs)).
    { rewrite size_struct. apply round_up_ge. apply align_fields_pos. }
    revert Htot. generalize (size w (TStruct fs)) as total. intros total.
    replace total with (total - 0) at 3 by lia.
    generalize 0 as pos. revert vs Hv.
    induction IH as [|f r Hf Hr IHr]; intros vs Hv pos Htot; destruct vs as [|x ys];
      cbn [typed_fields] in Hv; try contradiction; cbn [encode_fields fields_end] in *.
    + rewrite padding_length. lia.
    + destruct Hv as [Hx Hys].
      pose proof (round_up_ge pos (align w f) (align_pos w f Hw)).
      pose proof (fields_end_ge w r (round_up pos (align w f) + size w f) Hw).
      rewrite !app_length, padding_length, Hf, IHr by assumption. lia.
Qed.

Lemma skipn_app_exact : forall {A} (a b : list A) n, length a = n -> skipn n (a ++ b) = b.
Proof.
  intros A a b n H. rewrite skipn_app. rewrite skipn_all2 by lia.
  replace (n - length a) with 0 by lia. reflexivity.
Qed.
Lemma firstn_app_exact : forall {A} (a b : list A) n, length a = n -> firstn n (a ++ b) = a.
Proof.
  intros A a b n H. rewrite firstn_app. rewrite firstn_all2 by lia.
  replace (n - length a) with 0 by lia. apply app_nil_r.
Qed.

(** ** Decoding what was encoded *)
Lemma decode_encode : forall w pad t, 1 <= w -> forall p v rest,
  typed w t v -> decode w t (encode w pad p t v ++ rest) = Some v.
Proof.
  intros w pad t Hw. induction t as [| | | |n t IH|fs IH] using ty_rect2; intros p v rest Hv.
  - destruct v as [z|vs]; cbn in Hv; [|contradiction].
    destruct Hv as [-> | ->]; reflexivity.
  - destruct v as [z|vs]; cbn [typed] in Hv; [|contradiction].
    cbn [encode]. assert (E : unle (le 1 z) = z) by (apply unle_le; cbn; lia).
    cbn in E |- *. rewrite E. reflexivity.
  - destruct v as [z|vs]; cbn [typed] in Hv; [|contradiction].
    cbn [encode decode].
    assert (E : unle (le 4 z) = z).
    { apply unle_le. change (256 ^ Z.of_nat 4)%Z with 4294967296%Z. lia. }
    rewrite app_length, le_length.
    destruct (Nat.ltb_spec (4 + length rest) 4); [lia|].
    rewrite firstn_app_exact by apply le_length. rewrite E. reflexivity.
  - destruct v as [z|vs]; cbn [typed] in Hv; [|contradiction].
    cbn [encode decode].
    assert (E : unle (le w z) = z) by (apply unle_le; lia).
    rewrite app_length, le_length.
    destruct (Nat.ltb_spec (w + length rest) w); [lia|].
    rewrite firstn_app_exact by apply le_length. rewrite E. reflexivity.
  - destruct v as [z|vs]; [cbn in Hv; contradiction|].
    cbn [typed] in Hv. destruct Hv as [Hn Hv]. rewrite encode_arr, decode_arr.
    enough (G : forall p, decode_elems w t n (encode_elems w pad t p vs ++ rest) = Some vs)
      by (rewrite G; reflexivity).
    subst n. clear p. induction Hv as [|x r Hx Hr IHr]; intros p; [reflexivity|].
    cbn [encode_elems length decode_elems]. rewrite <- app_assoc, IH by assumption.
    rewrite skipn_app_exact by (apply encode_length; assumption).
    rewrite IHr. reflexivity.
  - destruct v as [z|vs]; [cbn in Hv; contradiction|].
    rewrite typed_struct in Hv. rewrite encode_struct, decode_struct.
    assert (Htot : fields_end w 0 fs <= size w (TStruct fs)).
    { rewrite size_struct. apply round_up_ge. apply align_fields_pos. }
    revert Htot. generalize (size w (TStruct fs)) as total. intros total Htot.
    enough (G : forall pos pre vs, length pre = pos -> typed_fields w fs vs ->
              fields_end w pos fs <= total ->
              decode_fields w (pre ++ encode_fields w pad p total pos fs vs ++ rest) pos fs = Some vs).
    { specialize (G 0 [] vs eq_refl Hv Htot). cbn [app] in G. rewrite G. reflexivity. }
    clear vs Hv Htot.
    induction IH as [|f r Hf Hr IHr]; intros pos pre vs Hpre Hv Hle; destruct vs as [|x ys];
      cbn [typed_fields] in Hv; try contradiction.
    + reflexivity.
    + destruct Hv as [Hx Hys]. cbn [encode_fields decode_fields fields_end] in *.
      set (q := round_up pos (align w f)) in *.
      assert (Hq : pos <= q) by (apply round_up_ge; apply align_pos; assumption).
      pose proof (fields_end_ge w r (q + size w f) Hw).
      rewrite <- !app_assoc.
      assert (E1 : skipn q (pre ++ padding pad (p + pos) (p + q)
                 ++ encode w pad (p + q) f x
                 ++ encode_fields w pad p total (q + size w f) r ys ++ rest)
               = encode w pad (p + q) f x
                 ++ encode_fields w pad p total (q + size w f) r ys ++ rest).
      { rewrite app_assoc. apply skipn_app_exact. rewrite app_length, padding_length. lia. }
      rewrite E1, Hf by assumption.
      specialize (IHr (q + size w f)
                    (pre ++ padding pad (p + pos) (p + q) ++ encode w pad (p + q) f x) ys).
      rewrite <- !app_assoc in IHr. rewrite IHr; [reflexivity| |assumption|assumption].
      rewrite !app_length, padding_length, encode_length by assumption. lia.
Qed.

(** ** Independence of the pointer width *)
Lemma portable_layout : forall w w' t, portable t = true ->
  align w t = align w' t /\ size w t = size w' t.
Proof.
  intros w w' t. induction t as [| | | |n t IH|fs IH] using ty_rect2; intros Hp.
  - split; reflexivity.
  - split; reflexivity.
  - split; reflexivity.
  - discriminate.
  - cbn [portable] in Hp. destruct (IH Hp) as [E1 E2]. cbn [align size]. rewrite E1, E2. auto.
  - cbn [portable] in Hp.
    assert (A : align_fields w fs = align_fields w' fs).
    { induction IH as [|f r Hf Hr IHr]; [reflexivity|]. cbn [forallb] in Hp.
      apply andb_true_iff in Hp. destruct Hp as [H1 H2].
      cbn [align_fields]. destruct (Hf H1) as [-> _]. rewrite IHr by assumption. reflexivity. }
    assert (B : forall pos, fields_end w pos fs = fields_end w' pos fs).
    { clear A. induction IH as [|f r Hf Hr IHr]; intros pos; [reflexivity|]. cbn [forallb] in Hp.
      apply andb_true_iff in Hp. destruct Hp as [H1 H2].
      cbn [fields_end]. destruct (Hf H1) as [-> ->]. apply IHr. assumption. }
    split; [rewrite !align_struct; exact A|].
    rewrite !size_struct, A, B. reflexivity.
Qed.

Lemma portable_typed : forall w w' t, portable t = true -> forall v,
  typed w t v -> typed w' t v.
Proof.
  intros w w' t. induction t as [| | | |n t IH|fs IH] using ty_rect2; intros Hp v Hv;
    try exact Hv; try discriminate.
  - destruct v as [z|vs]; [exact Hv|]. cbn [portable typed] in *. destruct Hv as [Hn Hv].
    split; [exact Hn|]. revert Hv. apply Forall_impl. intros a. apply IH. exact Hp.
  - destruct v as [z|vs]; [exact Hv|]. rewrite typed_struct in *. cbn [portable] in Hp.
    revert vs Hv. induction IH as [|f r Hf Hr IHr]; intros vs Hv; destruct vs as [|x ys];
      cbn [typed_fields] in *; try exact Hv; try contradiction.
    cbn [forallb] in Hp. apply andb_true_iff in Hp. destruct Hp as [H1 H2].
    destruct Hv as [Hx Hys]. split; [apply Hf; assumption | apply IHr; assumption].
Qed.

Lemma portable_encode : forall w w' pad t, portable t = true -> forall p v,
  typed w t v -> encode w pad p t v = encode w' pad p t v.
Proof.
  intros w w' pad t. induction t as [| | | |n t IH|fs IH] using ty_rect2; intros Hp p v Hv;
    try reflexivity; try discriminate.
  - destruct v as [z|vs]; [reflexivity|]. cbn [portable typed] in *. destruct Hv as [Hn Hv].
    rewrite !encode_arr. destruct (portable_layout w w' t Hp) as [_ Es].
    clear n Hn. revert p. induction Hv as [|x r Hx Hr IHr]; intros p; [reflexivity|].
    cbn [encode_elems]. rewrite IH by assumption. rewrite IHr, Es. reflexivity.
  - destruct v as [z|vs]; [reflexivity|]. rewrite typed_struct in Hv. rewrite !encode_struct.
    destruct (portable_layout w w' (TStruct fs) Hp) as [_ Es]. rewrite Es.
    generalize (size w' (TStruct fs)) as total. intros total. clear Es.
    cbn [portable] in Hp. generalize 0 as pos. revert vs Hv.
    induction IH as [|f r Hf Hr IHr]; intros vs Hv pos; destruct vs as [|x ys];
      cbn [typed_fields] in *; try contradiction; [reflexivity|].
    cbn [forallb] in Hp. apply andb_true_iff in Hp. destruct Hp as [H1 H2].
    destruct Hv as [Hx Hys]. cbn [encode_fields].
    destruct (portable_layout w w' f H1) as [Ea Es]. rewrite Ea, Es.
    rewrite (Hf H1) by assumption. rewrite (IHr H2) by assumption. reflexivity.
Qed.

(** ** Where the scalars are *)
Lemma align_cases : forall w t, w = 4 \/ w = 8 ->
  align w t = 1 \/ align w t = 4 \/ align w t = 8.
Proof.
  intros w t Hw. induction t as [| | | |n t IH|fs IH] using ty_rect2; cbn [align]; try lia.
  change (align w (TStruct fs) = 1 \/ align w (TStruct fs) = 4 \/ align w (TStruct fs) = 8).
  rewrite align_struct. induction IH; cbn [align_fields]; lia.
Qed.
Lemma align_fields_cases : forall w l, w = 4 \/ w = 8 ->
  align_fields w l = 1 \/ align_fields w l = 4 \/ align_fields w l = 8.
Proof. intros w l H. rewrite <- align_struct. apply align_cases. exact H. Qed.

Lemma divide_le : forall a b, a = 1 \/ a = 4 \/ a = 8 -> b = 1 \/ b = 4 \/ b = 8 ->
  a <= b -> Nat.divide a b.
Proof.
  intros a b Ha Hb H.
  destruct Ha as [->|[->| ->]], Hb as [->|[->| ->]]; try lia;
    [exists 1|exists 4|exists 8|exists 1|exists 2|exists 1]; reflexivity.
Qed.

Lemma size_divide : forall w t, w = 4 \/ w = 8 -> Nat.divide (align w t) (size w t).
Proof.
  intros w t Hw. induction t as [| | | |n t IH|fs IH] using ty_rect2.
  - exists 1; reflexivity.
  - exists 1; reflexivity.
  - exists 1; reflexivity.
  - cbn. exists 1. lia.
  - cbn [align size]. apply Nat.divide_mul_r. exact IH.
  - rewrite size_struct, align_struct. apply round_up_divide.
Qed.

Lemma apart_weaken : forall l lo lo' hi hi', lo' <= lo -> hi <= hi' ->
  apart lo l hi -> apart lo' l hi'.
Proof.
  induction l as [|[o n] r IH]; intros lo lo' hi hi' H1 H2 H; cbn [apart] in *; [lia|].
  destruct H as [Ha Hb]. split; [lia|]. eapply IH; [| |exact Hb]; lia.
Qed.
Lemma apart_app : forall a b lo mid hi,
  apart lo a mid -> apart mid b hi -> apart lo (a ++ b) hi.
Proof.
  induction a as [|[o n] r IH]; intros b lo mid hi Ha Hb; cbn [apart app] in *.
  - eapply apart_weaken; [exact Ha| |exact Hb]. lia.
  - destruct Ha as [H1 H2]. split; [exact H1|]. eapply IH; [exact H2|exact Hb].
Qed.

Lemma scalars_apart : forall w t, 1 <= w -> forall base,
  apart base (scalars w base t) (base + size w t).
Proof.
  intros w t Hw. induction t as [| | | |n t IH|fs IH] using ty_rect2; intros base;
    try (cbn; lia).
  - cbn [scalars size].
    assert (G : forall k i, apart (base + i * size w t)
              (flat_map (fun j => scalars w (base + j * size w t) t) (seq i k))
              (base + (i + k) * size w t)).
    { induction k as [|k IHk]; intros i; cbn [seq flat_map apart]; [nia|].
      eapply apart_app; [apply IH|].
      eapply apart_weaken; [| |apply (IHk (S i))]; nia. }
    specialize (G n 0). cbn [Nat.mul Nat.add] in G. rewrite Nat.add_0_r in G. exact G.
  - rewrite scalars_struct.
    assert (Htot : fields_end w 0 fs <= size w (TStruct fs)).
    { rewrite size_struct. apply round_up_ge. apply align_fields_pos. }
    eapply apart_weaken with (lo := base + 0) (hi := base + fields_end w 0 fs); [lia|lia|].
    clear Htot. generalize 0 as pos.
    induction IH as [|f r Hf Hr IHr]; intros pos; cbn [scalars_fields fields_end apart]; [lia|].
    pose proof (round_up_ge pos (align w f) (align_pos w f Hw)).
    eapply apart_app; [|eapply apart_weaken; [| |apply IHr]; [|lia]].
    + eapply apart_weaken; [| |apply Hf]; [lia|]. apply Nat.le_refl.
    + lia.
Qed.

Lemma scalars_aligned : forall w t, w = 4 \/ w = 8 -> forall base,
  Nat.divide (align w t) base ->
  Forall (fun on => Nat.divide (snd on) (fst on)) (scalars w base t).
Proof.
  intros w t Hw. induction t as [| | | |n t IH|fs IH] using ty_rect2; intros base Hb;
    try (cbn in *; constructor; [exact Hb|constructor]).
  - cbn [scalars align] in *. apply Forall_forall. intros x Hx.
    apply in_flat_map in Hx. destruct Hx as (i & _ & Hx).
    assert (D : Nat.divide (align w t) (base + i * size w t)).
    { apply Nat.divide_add_r; [exact Hb|]. apply Nat.divide_mul_r. apply size_divide. exact Hw. }
    specialize (IH _ D). rewrite Forall_forall in IH. apply IH. exact Hx.
  - rewrite scalars_struct. rewrite align_struct in Hb. generalize 0 as pos.
    induction IH as [|f r Hf Hr IHr]; intros pos; cbn [scalars_fields]; [constructor|].
    cbn [align_fields] in Hb.
    assert (D1 : Nat.divide (align w f) (Nat.max (align w f) (align_fields w r))).
    { apply divide_le; [apply align_cases; exact Hw| |lia].
      pose proof (align_cases w f Hw). pose proof (align_fields_cases w r Hw). lia. }
    assert (D2 : Nat.divide (align_fields w r) (Nat.max (align w f) (align_fields w r))).
    { apply divide_le; [apply align_fields_cases; exact Hw| |lia].
      pose proof (align_cases w f Hw). pose proof (align_fields_cases w r Hw). lia. }
    apply Forall_app. split.
    + apply Hf. apply Nat.divide_add_r; [|apply round_up_divide].
      eapply Nat.divide_trans; [exact D1|exact Hb].
    + apply IHr. eapply Nat.divide_trans; [exact D2|exact Hb].
Qed.

(** ** Each scalar's bytes are at its place, whatever the padding *)
Lemma at_scalars_app : forall l a b xs ys,
  at_scalars l a xs -> at_scalars l b ys -> at_scalars l (a ++ b) (xs ++ ys).
Proof.
  induction a as [|[o n] r IH]; intros b [|x xs] ys Ha Hb; cbn [at_scalars app] in *;
    try contradiction; [exact Hb|].
  destruct Ha as [H1 H2]. split; [exact H1|]. apply IH; assumption.
Qed.

Lemma at_scalars_one : forall pre rest n z,
  at_scalars (pre ++ le n z ++ rest) [(length pre, n)] [z].
Proof.
  intros. cbn [at_scalars]. split; [|exact I].
  rewrite skipn_app_exact by reflexivity. apply firstn_app_exact. apply le_length.
Qed.

Lemma encode_at_scalars : forall w pad t, 1 <= w -> forall p v pre rest base,
  typed w t v -> base = length pre ->
  at_scalars (pre ++ encode w pad p t v ++ rest) (scalars w base t) (ints v).
Proof.
  intros w pad t Hw. induction t as [| | | |n t IH|fs IH] using ty_rect2;
    intros p v pre rest base Hv ->.
  - destruct v; cbn [typed encode scalars ints] in *; [apply at_scalars_one|contradiction].
  - destruct v; cbn [typed encode scalars ints] in *; [apply at_scalars_one|contradiction].
  - destruct v; cbn [typed encode scalars ints] in *; [apply at_scalars_one|contradiction].
  - destruct v; cbn [typed encode scalars ints] in *; [apply at_scalars_one|contradiction].
  - destruct v as [z|vs]; [cbn in Hv; contradiction|].
    cbn [typed] in Hv. destruct Hv as [Hn Hv]. rewrite encode_arr. cbn [scalars ints]. subst n.
    enough (G : forall vs, Forall (typed w t) vs -> forall p pre i base,
              base + i * size w t = length pre ->
              at_scalars (pre ++ encode_elems w pad t p vs ++ rest)
                (flat_map (fun j => scalars w (base + j * size w t) t) (seq i (length vs)))
                (flat_map ints vs))
      by (apply G; [exact Hv|cbn; lia]).
    clear vs Hv p pre. intros vs Hv.
    induction Hv as [|x r Hx Hr IHr]; intros p pre i base Hb; [exact I|].
    cbn [encode_elems length seq flat_map]. rewrite <- app_assoc. apply at_scalars_app.
    + apply IH; assumption.
    + rewrite (app_assoc pre). apply IHr. rewrite app_length, encode_length by assumption. lia.
  - destruct v as [z|vs]; [cbn in Hv; contradiction|].
    rewrite typed_struct in Hv. rewrite encode_struct, scalars_struct. cbn [ints].
    assert (Htot : fields_end w 0 fs <= size w (TStruct fs)).
    { rewrite size_struct. apply round_up_ge. apply align_fields_pos. }
    revert Htot. generalize (size w (TStruct fs)) as total. intros total Htot.
    enough (G : forall pos pre base vs, base + pos = length pre -> typed_fields w fs vs ->
              fields_end w pos fs <= total ->
              at_scalars (pre ++ encode_fields w pad p total pos fs vs ++ rest)
                (scalars_fields w base pos fs) (flat_map ints vs))
      by (apply G; [lia|assumption|assumption]).
    clear vs Hv Htot pre.
    induction IH as [|f r Hf Hr IHr]; intros pos pre base vs Hpre Hv Hle; destruct vs as [|x ys];
      cbn [typed_fields] in Hv; try contradiction; [exact I|].
    destruct Hv as [Hx Hys]. cbn [encode_fields scalars_fields fields_end flat_map] in *.
    set (q := round_up pos (align w f)) in *.
    assert (Hq : pos <= q) by (apply round_up_ge; apply align_pos; assumption).
    rewrite <- !app_assoc. rewrite (app_assoc pre). apply at_scalars_app.
    + apply Hf; [assumption|]. rewrite app_length, padding_length. lia.
    + rewrite (app_assoc (pre ++ padding pad (p + pos) (p + q))).
      apply IHr; [|assumption|assumption].
      rewrite !app_length, padding_length, encode_length by assumption. lia.
Qed.
