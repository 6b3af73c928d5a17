(** * The setters build the ISA encoding (proofs) *)
Require Import ZArith Lia Bool List.
From Verif Require Import Word Isa Bits Codec CodecSpec CodecBits CodecFacts DecodeSpec DecodeFacts DecodeAccept EvalPlain Asm AsmSpec.
Import ListNotations.
Open Scope Z_scope.

(** ** Words as R-format fields *)
Definition rok (op rd f3 rs1 rs2 f7 : Z) : Prop :=
  0 <= op < 2 ^ 7 /\ 0 <= rd < 2 ^ 5 /\ 0 <= f3 < 2 ^ 3 /\ 0 <= rs1 < 2 ^ 5 /\ 0 <= rs2 < 2 ^ 5 /\ 0 <= f7 < 2 ^ 7.
Lemma rok_flds op rd f3 rs1 rs2 f7 : rok op rd f3 rs1 rs2 f7 ->
  let w := enc_R op rd f3 rs1 rs2 f7 in
  word w /\ fld 6 0 w = op /\ fld 11 7 w = rd /\ fld 14 12 w = f3 /\ fld 19 15 w = rs1 /\
  fld 24 20 w = rs2 /\ fld 31 25 w = f7.
Proof. intros (A & B & C & D & E & F). now apply enc_R_flds. Qed.
Lemma R_ext w op rd f3 rs1 rs2 f7 : word w ->
  fld 6 0 w = op -> fld 11 7 w = rd -> fld 14 12 w = f3 -> fld 19 15 w = rs1 -> fld 24 20 w = rs2 -> fld 31 25 w = f7 ->
  w = enc_R op rd f3 rs1 rs2 f7.
Proof. intros W <- <- <- <- <- <-. now apply word_enc_R. Qed.

Ltac via_fields f :=
  let R := fresh in let W := fresh in let H := fresh in let w := fresh in let Hw := fresh in
  let F0 := fresh in let F1 := fresh in let F2 := fresh in let F3 := fresh in let F4 := fresh in let F5 := fresh in
  let Hw' := fresh in let Hf := fresh in let Hd := fresh in
  intros R W; pose proof (rok_flds _ _ _ _ _ _ R) as H; cbv zeta in H;
  lazymatch goal with |- setf ?m ?s ?w ?v = _ =>
    destruct H as (Hw & F0 & F1 & F2 & F3 & F4 & F5);
    destruct (setter_ok false f w v (setf m s w v) Hw W eq_refl) as (Hw' & Hf & Hd & _) end;
  apply R_ext; [exact Hw'|..];
  first [ exact Hf
        | lazymatch goal with
          | |- fld 6 0 _ = _ => etransitivity; [apply (Hd Fopcode); unfold disjoint; cbn; lia|exact F0]
          | |- fld 11 7 _ = _ => etransitivity; [apply (Hd Frd); unfold disjoint; cbn; lia|exact F1]
          | |- fld 14 12 _ = _ => etransitivity; [apply (Hd Ff3); unfold disjoint; cbn; lia|exact F2]
          | |- fld 19 15 _ = _ => etransitivity; [apply (Hd Frs1); unfold disjoint; cbn; lia|exact F3]
          | |- fld 24 20 _ = _ => etransitivity; [apply (Hd Frs2); unfold disjoint; cbn; lia|exact F4]
          | |- fld 31 25 _ = _ => etransitivity; [apply (Hd Ff7); unfold disjoint; cbn; lia|exact F5]
          end ].
Lemma setf_rd op rd f3 rs1 rs2 f7 v : rok op rd f3 rs1 rs2 f7 -> word v ->
  setf RDMASK RDSHIFT (enc_R op rd f3 rs1 rs2 f7) v = enc_R op (v mod 32) f3 rs1 rs2 f7.
Proof. via_fields Frd. Qed.
Lemma setf_rs1 op rd f3 rs1 rs2 f7 v : rok op rd f3 rs1 rs2 f7 -> word v ->
  setf RS1MASK RS1SHIFT (enc_R op rd f3 rs1 rs2 f7) v = enc_R op rd f3 (v mod 32) rs2 f7.
Proof. via_fields Frs1. Qed.
Lemma setf_rs2 op rd f3 rs1 rs2 f7 v : rok op rd f3 rs1 rs2 f7 -> word v ->
  setf RS2MASK RS2SHIFT (enc_R op rd f3 rs1 rs2 f7) v = enc_R op rd f3 rs1 (v mod 32) f7.
Proof. via_fields Frs2. Qed.
Lemma setf_shamt op rd f3 rs1 rs2 f7 v : rok op rd f3 rs1 rs2 f7 -> word v ->
  setf SHAMTMASK SHAMTSHIFT (enc_R op rd f3 rs1 rs2 f7) v = enc_R op rd f3 rs1 (v mod 32) f7.
Proof. via_fields Fshamt. Qed.
Lemma setf_f3 op rd f3 rs1 rs2 f7 v : rok op rd f3 rs1 rs2 f7 -> word v ->
  setf FUNCT3MASK FUNCT3SHIFT (enc_R op rd f3 rs1 rs2 f7) v = enc_R op rd (v mod 8) rs1 rs2 f7.
Proof. via_fields Ff3. Qed.
Lemma setf_f7 op rd f3 rs1 rs2 f7 v : rok op rd f3 rs1 rs2 f7 -> word v ->
  setf FUNCT7MASK FUNCT7SHIFT (enc_R op rd f3 rs1 rs2 f7) v = enc_R op rd f3 rs1 rs2 (v mod 128).
Proof. via_fields Ff7. Qed.

(** ** Immediates *)
Ltac fld_of_set :=
  intros; apply word_bits_eq; [apply word_fld; lia|apply word_fld; lia|];
  let n := fresh "n" in let H := fresh "H" in intros n H; open_words; bit_goal n H.
Lemma i_set_2 w v : word w -> word v -> fld 24 20 (i_set w v) = fld 4 0 v. Proof. unfold i_set. fld_of_set. Qed.
Lemma i_set_7 w v : word w -> word v -> fld 31 25 (i_set w v) = fld 11 5 v. Proof. unfold i_set. fld_of_set. Qed.
Lemma s_set_d w v : word w -> word v -> fld 11 7 (s_set w v) = fld 4 0 v. Proof. unfold s_set. fld_of_set. Qed.
Lemma s_set_7 w v : word w -> word v -> fld 31 25 (s_set w v) = fld 11 5 v. Proof. unfold s_set. fld_of_set. Qed.

Lemma imm_keeps f w v h l : word w -> word v -> 0 <= l <= h -> h < 32 ->
  (forall n, l <= n <= h -> imm_bit f n = false) ->
  fld h l (setter_imm f w v) = fld h l w.
Proof.
  intros Hw Hv Hl Hh K. apply fld_bits_eq; [lia|]. intros n Hn. apply setter_imm_out; auto; lia.
Qed.
Lemma fld_signed h l k v : 0 <= l <= h -> h < k -> fld h l (signed k v) = fld h l v.
Proof.
  intros. apply fld_bits_eq; [lia|]. intros n Hn. rewrite tb_signed by lia.
  replace (n <? k) with true by (symmetry; apply Z.ltb_lt; lia).
  replace (0 <=? n) with true by (symmetry; apply Z.leb_le; lia). reflexivity.
Qed.

Lemma i_set_R op rd f3 rs1 rs2 f7 v : rok op rd f3 rs1 rs2 f7 -> word v ->
  i_set (enc_R op rd f3 rs1 rs2 f7) v = enc_R op rd f3 rs1 (fld 4 0 v) (fld 11 5 v).
Proof.
  intros R W. pose proof (rok_flds _ _ _ _ _ _ R) as H. cbv zeta in H. destruct H as (Hw & F0 & F1 & F2 & F3 & F4 & F5).
  apply R_ext; [apply (setter_imm_word FmtI); auto|..]; try (now apply i_set_2); try (now apply i_set_7);
    (etransitivity; [apply (imm_keeps FmtI); auto; try lia; intros n Hn; cbn; apply Z.leb_gt; lia|assumption]).
Qed.
Lemma s_set_R op rd f3 rs1 rs2 f7 v : rok op rd f3 rs1 rs2 f7 -> word v ->
  s_set (enc_R op rd f3 rs1 rs2 f7) v = enc_R op (fld 4 0 v) f3 rs1 rs2 (fld 11 5 v).
Proof.
  intros R W. pose proof (rok_flds _ _ _ _ _ _ R) as H. cbv zeta in H. destruct H as (Hw & F0 & F1 & F2 & F3 & F4 & F5).
  apply R_ext; [apply (setter_imm_word FmtS); auto|..]; try (now apply s_set_d); try (now apply s_set_7);
    (etransitivity; [apply (imm_keeps FmtS); auto; try lia; intros n Hn; cbn;
      destruct (Z.leb_spec 7 n); destruct (Z.ltb_spec n 12); destruct (Z.leb_spec 25 n); reflexivity || lia|assumption]).
Qed.
Lemma b_set_R op rd f3 rs1 rs2 f7 v : rok op rd f3 rs1 rs2 f7 -> word v ->
  b_set (enc_R op rd f3 rs1 rs2 f7) v =
  enc_R op (cat (fld 11 11 v) 1 (fld 4 1 v)) f3 rs1 rs2 (cat (fld 10 5 v) 6 (fld 12 12 v)).
Proof.
  intros R W. pose proof (rok_flds _ _ _ _ _ _ R) as H. cbv zeta in H. destruct H as (Hw & F0 & F1 & F2 & F3 & F4 & F5).
  apply R_ext; [apply (setter_imm_word FmtB); auto|..];
    try (etransitivity; [apply (imm_keeps FmtB); auto; try lia; intros n Hn; cbn;
      destruct (Z.leb_spec 7 n); destruct (Z.ltb_spec n 12); destruct (Z.leb_spec 25 n); reflexivity || lia|assumption]).
  - rewrite <- (cat_fld' (b_set _ v) 7 7 1 11 8) by lia. now rewrite b_set_c, b_set_a.
  - rewrite <- (cat_fld' (b_set _ v) 30 25 6 31 31) by lia. now rewrite b_set_b, b_set_d.
Qed.
Lemma u_set_f w v : word w -> word v -> fld 31 12 (u_set w v) = v mod 2 ^ 20.
Proof.
  intros. unfold u_set. apply word_bits_eq; [apply word_fld; lia| |].
  - pose proof (Z.mod_pos_bound v (2 ^ 20)). unfold word. lia.
  - intros n Hn; open_words; bit_goal n Hn.
Qed.
Lemma word_enc_U w : word w -> w = enc_U (fld 6 0 w) (fld 11 7 w) (fld 31 12 w).
Proof.
  intros Hw. unfold enc_U. rewrite (cat_fld' w) by lia. rewrite (cat_fld' w) by lia. symmetry. now apply fld_all.
Qed.
Lemma U_ext w op rd u : word w -> fld 6 0 w = op -> fld 11 7 w = rd -> fld 31 12 w = u -> w = enc_U op rd u.
Proof. intros W <- <- <-. now apply word_enc_U. Qed.
Lemma enc_U_flds op rd u : 0 <= op < 2 ^ 7 -> 0 <= rd < 2 ^ 5 -> 0 <= u < 2 ^ 20 ->
  word (enc_U op rd u) /\ fld 6 0 (enc_U op rd u) = op /\ fld 11 7 (enc_U op rd u) = rd.
Proof.
  intros Ho Hr Hu. rewrite enc_U_R by lia.
  destruct (enc_R_flds op rd (fld 2 0 u) (fld 7 3 u) (fld 12 8 u) (fld 19 13 u)
     ltac:(lia) ltac:(lia) ltac:(rng) ltac:(rng) ltac:(rng) ltac:(rng)) as (Hw & F0 & F1 & _).
  split; [exact Hw|]. split; [exact F0|exact F1].
Qed.
Lemma u_set_U op rd u v : 0 <= op < 2 ^ 7 -> 0 <= rd < 2 ^ 5 -> 0 <= u < 2 ^ 20 -> word v ->
  u_set (enc_U op rd u) v = enc_U op rd (v mod 2 ^ 20).
Proof.
  intros Ho Hr Hu W. destruct (enc_U_flds op rd u Ho Hr Hu) as (Hw & F0 & F1).
  apply U_ext; [apply (setter_imm_word FmtU); auto|..]; [..|now apply u_set_f];
    (etransitivity; [apply (imm_keeps FmtU); auto; try lia; intros n Hn; cbn; apply Z.leb_gt; lia|assumption]).
Qed.
Definition j_bits (v : Z) : Z := cat (fld 19 12 v) 8 (cat (fld 11 11 v) 1 (cat (fld 10 1 v) 10 (fld 20 20 v))).
Lemma j_bits_range v : 0 <= j_bits v < 2 ^ 20.
Proof.
  unfold j_bits. change (2 ^ 20) with (2 ^ (8 + (1 + (10 + 1)))). repeat (apply cat_range; try lia; try rng).
Qed.
Lemma enc_J_U op rd v : enc_J op rd v = enc_U op rd (j_bits v). Proof. reflexivity. Qed.
Lemma j_set_U op rd u v : 0 <= op < 2 ^ 7 -> 0 <= rd < 2 ^ 5 -> 0 <= u < 2 ^ 20 -> word v ->
  j_set (enc_U op rd u) v = enc_U op rd (j_bits v).
Proof.
  intros Ho Hr Hu W. destruct (enc_U_flds op rd u Ho Hr Hu) as (Hw & F0 & F1).
  apply U_ext; [apply (setter_imm_word FmtJ); auto|..];
    try (etransitivity; [apply (imm_keeps FmtJ); auto; try lia; intros n Hn; cbn; apply Z.leb_gt; lia|assumption]).
  unfold j_bits.
  rewrite <- (cat_fld' (j_set _ v) 19 12 8 31 20), <- (cat_fld' (j_set _ v) 20 20 1 31 21), <- (cat_fld' (j_set _ v) 30 21 10 31 31) by lia.
  now rewrite j_set_a, j_set_b, j_set_c, j_set_d.
Qed.
Lemma j_bits_cut v : j_bits (signed 21 (v - v mod 2)) = j_bits v.
Proof.
  assert (E : forall h l, 1 <= l <= h -> h < 21 -> fld h l (signed 21 (v - v mod 2)) = fld h l v).
  { intros h l H1 H2. rewrite fld_signed by lia. apply fld_bits_eq; [lia|]. intros n Hn. rewrite tb_even.
    replace (0 <? n) with true by (symmetry; apply Z.ltb_lt; lia). reflexivity. }
  unfold j_bits. rewrite !E by lia. reflexivity.
Qed.
Lemma b_cut v h l : 1 <= l <= h -> h < 13 -> fld h l (signed 13 (v - v mod 2)) = fld h l v.
Proof.
  intros H1 H2. rewrite fld_signed by lia. apply fld_bits_eq; [lia|]. intros n Hn. rewrite tb_even.
  replace (0 <? n) with true by (symmetry; apply Z.ltb_lt; lia). reflexivity.
Qed.

(** ** One setter on an encoded instruction *)
Definition ty_of (i : instr) : ity :=
  match i with
  | LUI _ _ | AUIPC _ _ => TU | JAL _ _ => TJ
  | JALR _ _ _ | LOAD _ _ _ _ | OPI _ _ _ _ | SHI _ _ _ _ => TI
  | BRANCH _ _ _ _ => TB | STORE _ _ _ _ => TS
  | OPR _ _ _ _ | OPM _ _ _ _ => TR
  end.
Definition op_of (i : instr) : Z :=
  match i with
  | LUI _ _ => 55 | AUIPC _ _ => 23 | JAL _ _ => 111 | JALR _ _ _ => 103 | BRANCH _ _ _ _ => 99
  | LOAD _ _ _ _ => 3 | STORE _ _ _ _ => 35 | OPI _ _ _ _ => 19 | SHI _ _ _ _ => 19
  | OPR _ _ _ _ | OPM _ _ _ _ => 51
  end.
(** R-format fields of the encodings that have a funct3 *)
Definition r_of (i : instr) : Z * Z * Z * Z * Z :=
  match i with
  | JALR rd rs1 off => (rd, 0, rs1, fld 4 0 off, fld 11 5 off)
  | LOAD k rd rs1 off => (rd, ld_f3 k, rs1, fld 4 0 off, fld 11 5 off)
  | OPI k rd rs1 off => (rd, iop_f3 k, rs1, fld 4 0 off, fld 11 5 off)
  | BRANCH c rs1 rs2 off => (cat (fld 11 11 off) 1 (fld 4 1 off), cond_f3 c, rs1, rs2, cat (fld 10 5 off) 6 (fld 12 12 off))
  | STORE k rs1 rs2 off => (fld 4 0 off, st_f3 k, rs1, rs2, fld 11 5 off)
  | SHI k rd rs1 sh => (rd, shop_f3 k, rs1, sh, shop_f7 k)
  | OPR k rd rs1 rs2 => (rd, rop_f3 k, rs1, rs2, rop_f7 k)
  | OPM k rd rs1 rs2 => (rd, mop_f3 k, rs1, rs2, 1)
  | _ => (0, 0, 0, 0, 0)
  end.
Definition is_r (i : instr) : bool := match i with LUI _ _ | AUIPC _ _ | JAL _ _ => false | _ => true end.
Lemma r_form i : legal i -> is_r i = true ->
  let '(rd, f3, rs1, rs2, f7) := r_of i in
  encode i = enc_R (op_of i) rd f3 rs1 rs2 f7 /\ rok (op_of i) rd f3 rs1 rs2 f7.
Proof.
  intros L H. destruct i; try discriminate H; cbn [legal] in L; unfold reg in L;
    cbn [r_of encode op_of]; rewrite ?enc_I_R, ?enc_S_R, ?enc_B_R; (split; [reflexivity|]); unfold rok;
    repeat split; try lia; try (apply fld_range; lia);
    try (match goal with |- context [fld ?h ?l ?x] => pose proof (fld_range h l x ltac:(lia)); lia end);
    try (destruct k; cbn; lia); try (destruct o; cbn; lia); try (destruct c; cbn; lia).
  - apply (cat_range _ 1 _ 4); try lia; rng.
  - apply (cat_range _ 1 _ 4); try lia; rng.
  - apply (cat_range _ 6 _ 1); try lia; rng.
  - apply (cat_range _ 6 _ 1); try lia; rng.
Qed.
Lemma u_form i : legal i -> is_r i = false ->
  exists rd u, encode i = enc_U (op_of i) rd u /\ 0 <= op_of i < 2 ^ 7 /\ 0 <= rd < 2 ^ 5 /\ 0 <= u < 2 ^ 20.
Proof.
  intros L H. destruct i; try discriminate H; cbn [legal] in L; unfold reg in L; cbn [encode op_of].
  - exists rd, imm20. repeat split; lia.
  - exists rd, imm20. repeat split; lia.
  - exists rd, (j_bits off). split; [apply enc_J_U|]. pose proof (j_bits_range off). lia.
Qed.
Lemma encode_op i : legal i -> word (encode i) /\ fld 6 0 (encode i) = op_of i.
Proof.
  intro L. destruct (is_r i) eqn:K.
  - pose proof (r_form i L K) as H. destruct (r_of i) as [[[[rd f3] rs1] rs2] f7]. destruct H as (-> & R).
    destruct (rok_flds _ _ _ _ _ _ R) as (Hw & F0 & _). now split.
  - destruct (u_form i L K) as (rd & u & -> & A & B & C). destruct (enc_U_flds _ _ _ A B C) as (Hw & F0 & _). now split.
Qed.
Lemma encode_f3 i : legal i -> is_r i = true -> fld 14 12 (encode i) = (let '(_, f3, _, _, _) := r_of i in f3).
Proof.
  intros L K. pose proof (r_form i L K) as H. destruct (r_of i) as [[[[rd f3] rs1] rs2] f7]. destruct H as (-> & R).
  now destruct (rok_flds _ _ _ _ _ _ R) as (Hw & F0 & F1 & F2 & _).
Qed.
Lemma encode_type i : legal i -> get_type (encode i) = Some (ty_of i).
Proof.
  intro L. destruct (encode_op i L) as (W & O). rewrite get_type_fld by exact W. rewrite O. destruct i; reflexivity.
Qed.
Lemma guard_ok A dbg ok w (r : A) t : get_type w = Some t -> ok t = true -> dbg_guard dbg ok w r = Some r.
Proof. intros T K. unfold dbg_guard. rewrite T, K. now destruct dbg. Qed.
Lemma guard_no A ok w (r : A) t : get_type w = Some t -> ok t = false -> dbg_guard true ok w r = None.
Proof. intros T K. unfold dbg_guard. now rewrite T, K. Qed.

Definition fmt_of (i : instr) : option fmt :=
  match i with
  | LUI _ _ | AUIPC _ _ => Some FmtU | JAL _ _ => Some FmtJ
  | JALR _ _ _ | LOAD _ _ _ _ | OPI _ _ _ _ => Some FmtI | SHI _ _ _ _ => Some FmtSh
  | BRANCH _ _ _ _ => Some FmtB | STORE _ _ _ _ => Some FmtS
  | OPR _ _ _ _ | OPM _ _ _ _ => None
  end.
Lemma encode_format i : legal i -> format (encode i) = fmt_of i.
Proof.
  intro L. destruct (encode_op i L) as (W & O). unfold format. rewrite O.
  destruct i; try reflexivity; rewrite encode_f3 by auto; cbn [r_of]; try (now destruct k); try (now destruct o).
Qed.

Lemma reg_mod v : reg (v mod 32). Proof. unfold reg. apply Z.mod_pos_bound. lia. Qed.
Lemma signed_range k x : 0 < k -> - 2 ^ (k - 1) <= signed k x < 2 ^ (k - 1).
Proof.
  intro K. unfold signed, low. pose proof (Z.mod_pos_bound x (2 ^ k) ltac:(apply Z.pow_pos_nonneg; lia)).
  replace (2 ^ k) with (2 * 2 ^ (k - 1)) in * by (rewrite <- Z.pow_succ_r by lia; f_equal; lia).
  destruct (Z.ltb_spec (x mod (2 * 2 ^ (k - 1))) (2 ^ (k - 1))); lia.
Qed.
Lemma signed_even k x : 1 < k -> signed k (x - x mod 2) mod 2 = 0.
Proof.
  intro K. assert (B : Z.testbit (signed k (x - x mod 2)) 0 = false).
  { rewrite tb_signed by lia. replace (0 <? k) with true by (symmetry; apply Z.ltb_lt; lia). rewrite tb_even. reflexivity. }
  rewrite <- Z.bit0_mod. now rewrite B.
Qed.
Lemma put_legal o v i i' : legal i -> put o v i = Some i' -> legal i'.
Proof.
  intros L P. pose proof (reg_mod v) as R.
  pose proof (signed_range 12 v ltac:(lia)) as S12. pose proof (signed_range 13 (v - v mod 2) ltac:(lia)) as S13.
  pose proof (signed_range 21 (v - v mod 2) ltac:(lia)) as S21.
  pose proof (signed_even 13 v ltac:(lia)) as E13. pose proof (signed_even 21 v ltac:(lia)) as E21.
  pose proof (Z.mod_pos_bound v (2 ^ 20) ltac:(lia)) as M20.
  destruct o, i; cbn in P; try discriminate P; injection P as <-; cbn [legal] in *;
    change (12 - 1) with 11 in *; change (13 - 1) with 12 in *; change (21 - 1) with 20 in *;
    intuition; apply R.
Qed.

Lemma set_ok dbg o v i : legal i -> word v ->
  match put o v i with
  | Some i' => set_operand dbg o (encode i) v = Some (encode i')
  | None => set_operand true o (encode i) v = None
  end.
Proof.
  intros L W. pose proof (encode_type i L) as T. pose proof (encode_format i L) as F.
  destruct (encode_op i L) as (Hw & _).
  destruct (put o v i) as [i'|] eqn:P.
  - destruct (is_r i) eqn:K.
    + assert (L' := put_legal _ _ _ _ L P). pose proof (r_form i L K) as H.
      assert (K' : is_r i' = true) by (destruct o, i; cbn in P; try discriminate P; try discriminate K; injection P as <-; reflexivity).
      pose proof (r_form i' L' K') as H'.
      destruct (r_of i) as [[[[rd f3] rs1] rs2] f7] eqn:Q. destruct (r_of i') as [[[[rd' f3'] rs1'] rs2'] f7'] eqn:Q'.
      destruct H as (E & R). destruct H' as (E' & _). rewrite E'.
      destruct o; cbn [set_operand].
      * unfold set_rd. rewrite (guard_ok _ _ _ _ _ _ T) by (destruct i; try discriminate P; reflexivity).
        rewrite E, setf_rd by auto. f_equal.
        destruct i; try discriminate P; try discriminate K; injection P as <-; injection Q as <- <- <- <- <-; injection Q' as <- <- <- <- <-; reflexivity.
      * unfold set_rs1. rewrite (guard_ok _ _ _ _ _ _ T) by (destruct i; try discriminate P; reflexivity).
        rewrite E, setf_rs1 by auto. f_equal.
        destruct i; try discriminate P; try discriminate K; injection P as <-; injection Q as <- <- <- <- <-; injection Q' as <- <- <- <- <-; reflexivity.
      * unfold set_rs2. rewrite (guard_ok _ _ _ _ _ _ T) by (destruct i; try discriminate P; reflexivity).
        rewrite E, setf_rs2 by auto. f_equal.
        destruct i; try discriminate P; try discriminate K; injection P as <-; injection Q as <- <- <- <- <-; injection Q' as <- <- <- <- <-; reflexivity.
      * destruct i; try discriminate P; try discriminate K; injection P as <-; injection Q as <- <- <- <- <-; injection Q' as <- <- <- <- <-;
          cbn [fmt_of] in F; rewrite (set_imm_fmt dbg _ v _ Hw F), E; cbn [setter_imm]; f_equal;
          rewrite ?i_set_R, ?s_set_R, ?b_set_R, ?setf_shamt by auto; rewrite ?b_cut by lia; rewrite ?fld_signed by lia; reflexivity.
    + destruct i; try discriminate K; cbn [legal] in L; unfold reg in L.
      * destruct o; try discriminate P; injection P as <-; cbn [set_operand].
        { unfold set_rd. rewrite (guard_ok _ _ _ _ _ _ T) by reflexivity. cbn [encode].
          rewrite !enc_U_R by lia. rewrite setf_rd; auto. unfold rok. repeat split; try lia; apply fld_range; lia. }
        rewrite (set_imm_fmt dbg _ v _ Hw F). cbn [setter_imm encode]. rewrite u_set_U; auto; lia.
      * destruct o; try discriminate P; injection P as <-; cbn [set_operand].
        { unfold set_rd. rewrite (guard_ok _ _ _ _ _ _ T) by reflexivity. cbn [encode].
          rewrite !enc_U_R by lia. rewrite setf_rd; auto. unfold rok. repeat split; try lia; apply fld_range; lia. }
        rewrite (set_imm_fmt dbg _ v _ Hw F). cbn [setter_imm encode]. rewrite u_set_U; auto; lia.
      * pose proof (j_bits_range off) as J.
        destruct o; try discriminate P; injection P as <-; cbn [set_operand].
        { unfold set_rd. rewrite (guard_ok _ _ _ _ _ _ T) by reflexivity. cbn [encode]. rewrite !enc_J_U.
          rewrite !enc_U_R by lia. rewrite setf_rd; auto. unfold rok. repeat split; try lia; apply fld_range; lia. }
        rewrite (set_imm_fmt dbg _ v _ Hw F). cbn [setter_imm encode]. rewrite !enc_J_U, j_set_U, j_bits_cut; auto; lia.
  - destruct o; cbn [set_operand].
    + apply (guard_no _ _ _ _ _ T). destruct i; try discriminate P; reflexivity.
    + apply (guard_no _ _ _ _ _ T). destruct i; try discriminate P; reflexivity.
    + apply (guard_no _ _ _ _ _ T). destruct i; try discriminate P; reflexivity.
    + unfold set_imm. rewrite T. destruct i; try discriminate P; reflexivity.
Qed.

Lemma fill_ok dbg ops : Forall (fun p => word (snd p)) ops -> forall i, legal i ->
  match puts ops i with
  | Some i' => fill dbg (encode i) ops = Some (encode i') /\ legal i'
  | None => fill true (encode i) ops = None
  end.
Proof.
  induction ops as [|[o v] r IH]; intros W i L; cbn [puts fill]; [now split|].
  inversion W as [|? ? W1 W2]; subst. cbn [snd] in W1. pose proof (set_ok dbg o v i L W1) as S. pose proof (set_ok true o v i L W1) as S'.
  destruct (put o v i) as [i'|] eqn:P; [|now rewrite S].
  specialize (IH W2 i' (put_legal _ _ _ _ L P)). rewrite S, S'. destruct (puts r i'); exact IH.
Qed.
Lemma template_ok t : template_word t = encode (template_instr t) /\ legal (template_instr t).
Proof. destruct t; (split; [vm_compute; reflexivity|]); cbn [template_instr legal]; unfold reg; repeat split; lia. Qed.

(** ** The unit tests of the formats *)
Lemma check_ok dbg i imm rs2 rs1 rd ops : legal i -> imm_of i = imm -> regs_of i = (rs2, rs1, rd) -> ops_of i = ops ->
  check_instruction dbg (encode i) imm rs2 rs1 rd ops = Some tt.
Proof.
  intros L I R O. destruct (decode_legal dbg i L) as (W & D1 & D2 & D3). rewrite I in D3. rewrite R in D2. rewrite O in D1.
  destruct ops as [[o1 o2] o3]. unfold check_instruction.
  destruct (parser_add dbg parser_new (encode i)) as [p|] eqn:E.
  - destruct (parser_lookup dbg [encode i] p 0 (encode i)) as (p1 & p2 & p3 & a & b & c & m & (Q1 & Q2 & Q3) & G & _).
    + constructor; [exact W|constructor].
    + cbn [parser_add_all]. now rewrite E.
    + reflexivity.
    + rewrite D1 in Q1. rewrite D2 in Q2. rewrite D3 in Q3. injection Q1 as <- <- <-. injection Q2 as <- <- <-. injection Q3 as <-.
      unfold parser_add in E. rewrite D1, D2, D3 in E. injection E as <-. cbn [assert_size p_imm p_ins parser_new length app Nat.eqb andb].
      unfold assert_instruction. rewrite G. cbn [p_imm parser_new app length]. rewrite !Z.eqb_refl. reflexivity.
  - unfold parser_add in E. rewrite D1, D2, D3 in E. discriminate E.
Qed.

Lemma small_op op : 0 <= op < 2 ^ 7 -> word op /\ fld 6 0 op = op /\ op = enc_R op 0 0 0 0 0.
Proof.
  intro H. assert (W : word op) by (unfold word; lia). split; [exact W|]. split; [apply fld_all; exact H|].
  unfold enc_R, cat. ring.
Qed.
Lemma type_R op rd f3 rs1 rs2 f7 : rok op rd f3 rs1 rs2 f7 -> get_type (enc_R op rd f3 rs1 rs2 f7) = get_type op.
Proof.
  intro R. destruct (rok_flds _ _ _ _ _ _ R) as (W & F & _). destruct (small_op op (proj1 R)) as (W' & F' & _).
  rewrite !get_type_fld by auto. now rewrite F, F'.
Qed.
Lemma rok_0 op : 0 <= op < 2 ^ 7 -> rok op 0 0 0 0 0. Proof. unfold rok. lia. Qed.
Lemma word_reg r : reg r -> word r. Proof. unfold reg, word. lia. Qed.
Lemma mod_reg r : reg r -> r mod 32 = r. Proof. unfold reg. intro. apply Z.mod_small. lia. Qed.
Lemma f3_mod r : 0 <= r < 8 -> r mod 8 = r /\ word r. Proof. intro. split; [apply Z.mod_small; lia|unfold word; lia]. Qed.

Section Chain.
Context (dbg : bool) (op rd f3 rs1 rs2 f7 : Z) (R : rok op rd f3 rs1 rs2 f7).
Let w := enc_R op rd f3 rs1 rs2 f7.
Lemma c_rd t v : get_type op = Some t -> has_rd t = true -> reg v -> set_rd dbg w v = Some (enc_R op v f3 rs1 rs2 f7).
Proof.
  intros T K V. unfold set_rd, w. rewrite (guard_ok _ _ _ _ _ t) by (rewrite ?type_R; auto).
  now rewrite setf_rd, mod_reg by (auto using word_reg).
Qed.
Lemma c_rs1 t v : get_type op = Some t -> has_rs1 t = true -> reg v -> set_rs1 dbg w v = Some (enc_R op rd f3 v rs2 f7).
Proof.
  intros T K V. unfold set_rs1, w. rewrite (guard_ok _ _ _ _ _ t) by (rewrite ?type_R; auto).
  now rewrite setf_rs1, mod_reg by (auto using word_reg).
Qed.
Lemma c_rs2 t v : get_type op = Some t -> has_rs2 t = true -> reg v -> set_rs2 dbg w v = Some (enc_R op rd f3 rs1 v f7).
Proof.
  intros T K V. unfold set_rs2, w. rewrite (guard_ok _ _ _ _ _ t) by (rewrite ?type_R; auto).
  now rewrite setf_rs2, mod_reg by (auto using word_reg).
Qed.
Lemma c_f3 t v : get_type op = Some t -> has_funct3 t = true -> 0 <= v < 8 -> set_funct3 dbg w v = Some (enc_R op rd v rs1 rs2 f7).
Proof.
  intros T K V. unfold set_funct3, w. rewrite (guard_ok _ _ _ _ _ t) by (rewrite ?type_R; auto).
  destruct (f3_mod v V) as (M & W). now rewrite setf_f3, M by auto.
Qed.
Lemma c_f7 t v : get_type op = Some t -> has_set_funct7 t = true -> 0 <= v < 128 -> set_funct7 dbg w v = Some (enc_R op rd f3 rs1 rs2 v).
Proof.
  intros T K V. unfold set_funct7, w. rewrite (guard_ok _ _ _ _ _ t) by (rewrite ?type_R; auto).
  rewrite setf_f7 by (auto; unfold word; lia). now rewrite Z.mod_small by lia.
Qed.
End Chain.

Ltac rokt := unfold rok, reg in *; do 5 (split; [first [lia | (apply fld_range; lia)
    | (apply (cat_range _ 1 _ 4); try lia; rng) | (apply (cat_range _ 6 _ 1); try lia; rng)]|]);
  first [lia | (apply fld_range; lia) | (apply (cat_range _ 6 _ 1); try lia; rng)].

Lemma i_chain dbg op f3 imm rs1 rd (k : Z -> option unit) : format op = Some FmtI -> get_type op = Some TI -> 0 <= op < 2 ^ 7 ->
  0 <= f3 < 8 -> word imm -> reg rs1 -> reg rd ->
  (do w <- set_imm dbg op imm; do w <- set_funct3 dbg w f3; do w <- set_rs1 dbg w rs1; do w <- set_rd dbg w rd; k w) =
  k (enc_R op rd f3 rs1 (fld 4 0 imm) (fld 11 5 imm)).
Proof.
  intros F T O H3 W H1 Hd. destruct (small_op op O) as (Wo & _ & E).
  rewrite (set_imm_fmt dbg op imm FmtI Wo F). cbn [setter_imm]. rewrite E at 1. rewrite i_set_R by (auto using rok_0).
  erewrite c_f3; [|rokt|exact T|reflexivity|assumption].
  erewrite c_rs1; [|rokt|exact T|reflexivity|assumption].
  erewrite c_rd; [|rokt|exact T|reflexivity|assumption]. reflexivity.
Qed.
Lemma s_chain dbg op f3 imm rs2 rs1 (k : Z -> option unit) : format op = Some FmtS -> get_type op = Some TS -> 0 <= op < 2 ^ 7 ->
  0 <= f3 < 8 -> word imm -> reg rs1 -> reg rs2 ->
  (do w <- set_imm dbg op imm; do w <- set_funct3 dbg w f3; do w <- set_rs2 dbg w rs2; do w <- set_rs1 dbg w rs1; k w) =
  k (enc_R op (fld 4 0 imm) f3 rs1 rs2 (fld 11 5 imm)).
Proof.
  intros F T O H3 W H1 H2. destruct (small_op op O) as (Wo & _ & E).
  rewrite (set_imm_fmt dbg op imm FmtS Wo F). cbn [setter_imm]. rewrite E at 1. rewrite s_set_R by (auto using rok_0).
  erewrite c_f3; [|rokt|exact T|reflexivity|assumption].
  erewrite c_rs2; [|rokt|exact T|reflexivity|assumption].
  erewrite c_rs1; [|rokt|exact T|reflexivity|assumption]. reflexivity.
Qed.
Lemma b_chain dbg op f3 imm rs2 rs1 (k : Z -> option unit) : format op = Some FmtB -> get_type op = Some TB -> 0 <= op < 2 ^ 7 ->
  0 <= f3 < 8 -> word imm -> reg rs1 -> reg rs2 ->
  (do w <- set_imm dbg op imm; do w <- set_funct3 dbg w f3; do w <- set_rs2 dbg w rs2; do w <- set_rs1 dbg w rs1; k w) =
  k (enc_R op (cat (fld 11 11 imm) 1 (fld 4 1 imm)) f3 rs1 rs2 (cat (fld 10 5 imm) 6 (fld 12 12 imm))).
Proof.
  intros F T O H3 W H1 H2. destruct (small_op op O) as (Wo & _ & E).
  rewrite (set_imm_fmt dbg op imm FmtB Wo F). cbn [setter_imm]. rewrite E at 1. rewrite b_set_R by (auto using rok_0).
  erewrite c_f3; [|rokt|exact T|reflexivity|assumption].
  erewrite c_rs2; [|rokt|exact T|reflexivity|assumption].
  erewrite c_rs1; [|rokt|exact T|reflexivity|assumption]. reflexivity.
Qed.
Lemma r_chain dbg op f7 f3 rs2 rs1 rd (k : Z -> option unit) : get_type op = Some TR -> 0 <= op < 2 ^ 7 ->
  0 <= f3 < 8 -> 0 <= f7 < 128 -> reg rs1 -> reg rs2 -> reg rd ->
  (do w <- set_funct3 dbg op f3; do w <- set_funct7 dbg w f7; do w <- set_rs2 dbg w rs2; do w <- set_rs1 dbg w rs1;
   do w <- set_rd dbg w rd; k w) = k (enc_R op rd f3 rs1 rs2 f7).
Proof.
  intros T O H3 H7 H1 H2 Hd. destruct (small_op op O) as (Wo & _ & E). rewrite E at 1.
  erewrite c_f3; [|rokt|exact T|reflexivity|assumption].
  erewrite c_f7; [|rokt|exact T|reflexivity|assumption].
  erewrite c_rs2; [|rokt|exact T|reflexivity|assumption].
  erewrite c_rs1; [|rokt|exact T|reflexivity|assumption].
  erewrite c_rd; [|rokt|exact T|reflexivity|assumption]. reflexivity.
Qed.
Lemma u_chain dbg op imm rd f (k : Z -> option unit) : format op = Some f -> In f [FmtU; FmtJ] -> 0 <= op < 2 ^ 7 ->
  word imm -> reg rd ->
  (do w <- set_imm dbg op imm; do w <- set_rd dbg w rd; k w) =
  k (enc_U op rd (match f with FmtJ => j_bits imm | _ => imm mod 2 ^ 20 end)).
Proof.
  intros F I O W Hd. destruct (small_op op O) as (Wo & _ & _).
  assert (E : op = enc_U op 0 0) by (unfold enc_U, cat; ring).
  pose proof (format_type op f Wo F) as T.
  set (u := match f with FmtJ => j_bits imm | _ => imm mod 2 ^ 20 end).
  assert (U : 0 <= u < 2 ^ 20).
  { unfold u. destruct I as [<-|[<-|[]]]; [apply Z.mod_pos_bound; lia|apply j_bits_range]. }
  rewrite (set_imm_fmt dbg op imm f Wo F).
  assert (S : setter_imm f op imm = enc_U op 0 u).
  { unfold u. destruct I as [<-|[<-|[]]]; cbn [setter_imm]; rewrite E at 1; [apply u_set_U|apply j_set_U]; auto; lia. }
  rewrite S, enc_U_R by lia.
  erewrite c_rd; [|rokt|exact T|destruct I as [<-|[<-|[]]]; reflexivity|assumption].
  now rewrite enc_U_R by lia.
Qed.

Lemma sext_11 x : word x -> sext x 11 = to_word (signed 12 x). Proof. intros. unfold sext. blast. Qed.
Lemma sext_12 x : word x -> sext x 12 = to_word (signed 13 x). Proof. intros. unfold sext. blast. Qed.
Lemma sext_19 x : word x -> sext x 19 = to_word (signed 20 x). Proof. intros. unfold sext. blast. Qed.
Lemma sext_20 x : word x -> sext x 20 = to_word (signed 21 x). Proof. intros. unfold sext. blast. Qed.

Definition operands_ok (t : unit_test) (imm rs2 rs1 rd : Z) : Prop :=
  word imm /\ reg rs2 /\ reg rs1 /\ reg rd /\
  match t with
  | U_test _ => imm < 2 ^ 20
  | J_test _ | B_test _ _ => imm mod 2 = 0
  | Sh_test _ _ => imm < 32
  | _ => True
  end.
Lemma even_sub v : v mod 2 = 0 -> v - v mod 2 = v. Proof. lia. Qed.
Ltac in_cases H :=
  lazymatch type of H with
  | _ \/ _ => let K := fresh in destruct H as [K|H]; [in_cases K|in_cases H]
  | False => destruct H
  | _ = _ => injection H as <- <-
  end.
Lemma I_pass dbg op f3 imm rs1 rd rs2 ops (i : Z -> instr) :
  format op = Some FmtI -> get_type op = Some TI -> 0 <= op < 2 ^ 7 -> 0 <= f3 < 8 -> word imm -> reg rs1 -> reg rd ->
  (forall m, encode (i m) = enc_R op rd f3 rs1 (fld 4 0 m) (fld 11 5 m)) ->
  (forall m, - 2 ^ 11 <= m < 2 ^ 11 -> legal (i m)) -> (forall m, imm_of (i m) = to_word m) ->
  (forall m, regs_of (i m) = (0, rs1, rd)) -> (forall m, ops_of (i m) = ops) ->
  run_unit_test dbg (I_test f3 op) ops imm rs2 rs1 rd = Some tt.
Proof.
  intros F T O H3 W H1 Hd E L M G P. cbn [run_unit_test].
  rewrite (i_chain dbg op f3 imm rs1 rd (fun w => check_instruction dbg w _ _ _ _ _)) by auto.
  pose proof (signed_range 12 imm ltac:(lia)) as S. change (12 - 1) with 11 in S.
  pose proof (check_ok dbg (i (signed 12 imm)) (sext imm 11) 0 rs1 rd ops) as K.
  rewrite E, !fld_signed in K by lia. apply K; auto. rewrite M. symmetry. now apply sext_11.
Qed.
Lemma S_pass dbg op f3 imm rs1 rd rs2 ops (i : Z -> instr) :
  format op = Some FmtS -> get_type op = Some TS -> 0 <= op < 2 ^ 7 -> 0 <= f3 < 8 -> word imm -> reg rs1 -> reg rs2 ->
  (forall m, encode (i m) = enc_R op (fld 4 0 m) f3 rs1 rs2 (fld 11 5 m)) ->
  (forall m, - 2 ^ 11 <= m < 2 ^ 11 -> legal (i m)) -> (forall m, imm_of (i m) = to_word m) ->
  (forall m, regs_of (i m) = (rs2, rs1, 0)) -> (forall m, ops_of (i m) = ops) ->
  run_unit_test dbg (S_test f3 op) ops imm rs2 rs1 rd = Some tt.
Proof.
  intros F T O H3 W H1 Hd E L M G P. cbn [run_unit_test].
  rewrite (s_chain dbg op f3 imm rs2 rs1 (fun w => check_instruction dbg w _ _ _ _ _)) by auto.
  pose proof (signed_range 12 imm ltac:(lia)) as S. change (12 - 1) with 11 in S.
  pose proof (check_ok dbg (i (signed 12 imm)) (sext imm 11) rs2 rs1 0 ops) as K.
  rewrite E, !fld_signed in K by lia. apply K; auto. rewrite M. symmetry. now apply sext_11.
Qed.
Lemma B_pass dbg f3 imm rs1 rd rs2 ops c :
  f3 = cond_f3 c -> ops = (RNONE, MNONE, cond_id c) -> word imm -> imm mod 2 = 0 -> reg rs1 -> reg rs2 ->
  run_unit_test dbg (B_test f3 99) ops imm rs2 rs1 rd = Some tt.
Proof.
  intros -> -> W Ev H1 H2. cbn [run_unit_test].
  rewrite (b_chain dbg 99 (cond_f3 c) imm rs2 rs1 (fun w => check_instruction dbg w _ _ _ _ _)) by (try reflexivity; auto; try lia; destruct c; cbn; lia).
  pose proof (signed_range 13 (imm - imm mod 2) ltac:(lia)) as S. change (13 - 1) with 12 in S.
  pose proof (signed_even 13 imm ltac:(lia)) as E.
  pose proof (check_ok dbg (BRANCH c rs1 rs2 (signed 13 (imm - imm mod 2))) (sext imm 12) rs2 rs1 0 (RNONE, MNONE, cond_id c)) as K.
  cbn [encode] in K. rewrite enc_B_R, !b_cut in K by lia. apply K; auto; [repeat split; try apply H1; try apply H2; lia|].
  cbn [imm_of]. rewrite (even_sub imm Ev). symmetry. now apply sext_12.
Qed.
Lemma R_pass dbg f7 f3 imm rs1 rd rs2 ops i :
  0 <= f3 < 8 -> 0 <= f7 < 128 -> reg rs1 -> reg rs2 -> reg rd ->
  encode i = enc_R 51 rd f3 rs1 rs2 f7 -> legal i -> imm_of i = 0 -> regs_of i = (rs2, rs1, rd) -> ops_of i = ops ->
  run_unit_test dbg (R_test f7 f3 51) ops imm rs2 rs1 rd = Some tt.
Proof.
  intros H3 H7 H1 H2 Hd E L M G P. cbn [run_unit_test].
  rewrite (r_chain dbg 51 f7 f3 rs2 rs1 rd (fun w => check_instruction dbg w _ _ _ _ _)) by (auto; try reflexivity; lia).
  rewrite <- E. now apply check_ok.
Qed.
Lemma sh_imm c imm : 0 <= imm < 32 -> Z.land (Z.lor (Z.land c 0xFE0) imm) 0x1F = imm.
Proof.
  intro H. rewrite Z.land_lor_distr_l, <- Z.land_assoc. change (Z.land 0xFE0 0x1F) with 0. rewrite Z.land_0_r, Z.lor_0_l.
  change 0x1F with (Z.ones 5). rewrite Z.land_ones by lia. apply Z.mod_small. lia.
Qed.
Lemma Sh_pass dbg c f3 imm rs1 rd rs2 ops k :
  In c [31; 1055] -> f3 = shop_f3 k -> fld 11 5 c = shop_f7 k -> 0 <= imm < 32 -> reg rs1 -> reg rd -> ops = (shop_id k, MNONE, PNONE) ->
  run_unit_test dbg (Sh_test c f3) ops imm rs2 rs1 rd = Some tt.
Proof.
  intros Hc -> F7 Hi H1 Hd ->. cbn [run_unit_test].
  set (m := Z.lor (Z.land c 0xFE0) imm).
  assert (Wi : word imm) by (unfold word; lia). assert (Wc : word c) by (destruct Hc as [<-|[<-|[]]]; unfold word; lia).
  assert (W : word m) by (apply word_lor; [apply word_land_l; [exact Wc|lia]|exact Wi]).
  rewrite (i_chain dbg 19 (shop_f3 k) m rs1 rd (fun w => check_instruction dbg w _ _ _ _ _)) by (auto; try reflexivity; try lia; destruct k; cbn; lia).
  pose proof (sh_imm c imm Hi) as S. fold m in S. rewrite S.
  assert (A : fld 4 0 m = imm).
  { rewrite fld_0_low by lia. unfold low. change (4 + 1) with 5. rewrite <- Z.land_ones by lia. exact S. }
  assert (B : fld 11 5 m = shop_f7 k).
  { rewrite <- F7. apply fld_bits_eq; [lia|]. intros n Hn. unfold m. rewrite Z.lor_spec, Z.land_spec.
    rewrite (testbit_hi imm 5 ltac:(lia) n ltac:(lia)), orb_false_r.
    assert (C : n = 5 \/ n = 6 \/ n = 7 \/ n = 8 \/ n = 9 \/ n = 10 \/ n = 11) by lia.
    destruct C as [->|[->|[->|[->|[->|[->| ->]]]]]]; apply andb_true_r. }
  rewrite A, B. apply (check_ok dbg (SHI k rd rs1 imm)); auto. repeat split; try apply H1; try apply Hd; lia.
Qed.
Lemma unit_tests_pass dbg t ops imm rs2 rs1 rd : In (t, ops) unit_tests -> operands_ok t imm rs2 rs1 rd ->
  run_unit_test dbg t ops imm rs2 rs1 rd = Some tt.
Proof.
  intros H (W & H2 & H1 & Hd & X). unfold unit_tests in H. cbn [In] in H.
  in_cases H; cbn beta iota in X.
  1: { cbn [run_unit_test]. rewrite (u_chain dbg 55 imm rd FmtU (fun w => check_instruction dbg w _ _ _ _ _)) by (cbn; auto; lia).
       rewrite Z.mod_small by (unfold word in W; lia). apply (check_ok dbg (LUI rd imm)); auto. split; auto. unfold word in W. lia. }
  1: { cbn [run_unit_test]. rewrite (u_chain dbg 23 imm rd FmtU (fun w => check_instruction dbg w _ _ _ _ _)) by (cbn; auto; lia).
       rewrite Z.mod_small by (unfold word in W; lia). apply (check_ok dbg (AUIPC rd imm)); auto. split; auto. unfold word in W. lia. }
  1-6: match goal with |- run_unit_test _ _ (_, _, ?o) _ _ _ _ = _ =>
         let c := lazymatch o with PBEQ => EQ | PBNE => NE | PBLT => LT | PBGE => GE | PBLTU => LTU | PBGEU => GEU end in
         now apply (B_pass _ _ _ _ _ _ _ c) end.
  1-3: match goal with |- run_unit_test _ _ (_, ?o, _) _ _ _ _ = _ =>
         let c := lazymatch o with MSB => SB | MSH => SH | MSW => SW end in
         apply (S_pass dbg 35 _ imm rs1 rd rs2 _ (fun m => STORE c rs1 rs2 m)); auto; try lia;
           intros m Hm; cbn [legal]; auto end.
  1: { cbn [run_unit_test]. rewrite (u_chain dbg 111 imm rd FmtJ (fun w => check_instruction dbg w _ _ _ _ _)) by (cbn; auto; lia).
       pose proof (signed_range 21 (imm - imm mod 2) ltac:(lia)) as S. change (21 - 1) with 20 in S.
       pose proof (signed_even 21 imm ltac:(lia)) as E.
       pose proof (check_ok dbg (JAL rd (signed 21 (imm - imm mod 2))) (sext imm 20) 0 0 rd (RJAL, MNONE, PJAL)) as K.
       cbn [encode] in K. rewrite enc_J_U, j_bits_cut in K. apply K; auto; [split; auto; split; auto; lia|].
       cbn [imm_of]. rewrite (even_sub imm X). symmetry. now apply sext_20. }
  1-6: match goal with |- run_unit_test _ _ (?o, _, _) _ _ _ _ = _ =>
         let c := lazymatch o with RADDI => ADDI | RSLTI => SLTI | RSLTIU => SLTIU | RXORI => XORI | RORI => ORI | RANDI => ANDI end in
         apply (I_pass dbg 19 _ imm rs1 rd rs2 _ (fun m => OPI c rd rs1 m)); auto; try lia;
           [intro; cbn [encode]; apply enc_I_R|intros m Hm; cbn [legal]; auto] end.
  1: { apply (Sh_pass _ _ _ _ _ _ _ _ SLLI); cbn; auto; unfold word in W; lia. }
  1: { apply (Sh_pass _ _ _ _ _ _ _ _ SRLI); cbn; auto; unfold word in W; lia. }
  1: { apply (Sh_pass _ _ _ _ _ _ _ _ SRAI); cbn; auto; unfold word in W; lia. }
  1: { apply (I_pass dbg 103 _ imm rs1 rd rs2 _ (fun m => JALR rd rs1 m)); auto; try lia;
           [intro; cbn [encode]; apply enc_I_R|intros m Hm; cbn [legal]; auto]. }
  1-5: match goal with |- run_unit_test _ _ (?o, _, _) _ _ _ _ = _ =>
         let c := lazymatch o with RLB => LB | RLH => LH | RLW => LW | RLBU => LBU | RLHU => LHU end in
         apply (I_pass dbg 3 _ imm rs1 rd rs2 _ (fun m => LOAD c rd rs1 m)); auto; try lia;
           [intro; cbn [encode]; apply enc_I_R|intros m Hm; cbn [legal]; auto] end.
  1-10: match goal with |- run_unit_test _ _ (?o, _, _) _ _ _ _ = _ =>
         let c := lazymatch o with RADD => ADD | RAND => AND | ROR => OR | RSLL => SLL | RSLT => SLT | RSLTU => SLTU
                    | RSRA => SRA | RSRL => SRL | RSUB => SUB | RXOR => XOR end in
         apply (R_pass dbg _ _ _ _ _ _ _ (OPR c rd rs1 rs2)); cbn [legal]; auto; lia end.
  all: match goal with |- run_unit_test _ _ (?o, _, _) _ _ _ _ = _ =>
         let c := lazymatch o with RMUL => MUL | RMULH => MULH | RMULHSU => MULHSU | RMULHU => MULHU | RDIV => DIV
                    | RDIVU => DIVU | RREM => REM | RREMU => REMU end in
         apply (R_pass dbg _ _ _ _ _ _ _ (OPM c rd rs1 rs2)); cbn [legal]; auto; lia end.
Qed.
