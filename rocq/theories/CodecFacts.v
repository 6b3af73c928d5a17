(** * Facts about the instruction codec (proofs) *)
Require Import ZArith Lia Bool List.
Require Import ZifyBool.
From Verif Require Import Word Isa Bits Codec CodecSpec CodecBits.
Import ListNotations.
Open Scope Z_scope.


Definition getter (dbg : bool) (f : field) (w : Z) : option Z :=
  match f with
  | Fopcode => Some (get_opcode w) | Frd => get_rd dbg w | Ff3 => get_funct3 dbg w
  | Frs1 => get_rs1 dbg w | Frs2 => get_rs2 dbg w | Fshamt => get_shamt dbg w
  | Ff7 => get_funct7 dbg w
  end.
Definition setter (dbg : bool) (f : field) (w v : Z) : option Z :=
  match f with
  | Fopcode => Some (set_opcode w v) | Frd => set_rd dbg w v | Ff3 => set_funct3 dbg w v
  | Frs1 => set_rs1 dbg w v | Frs2 => set_rs2 dbg w v | Fshamt => set_shamt dbg w v
  | Ff7 => set_funct7 dbg w v
  end.
Definition fmask f := match f with
  | Fopcode => OPCODEMASK | Frd => RDMASK | Ff3 => FUNCT3MASK
  | Frs1 => RS1MASK | Frs2 => RS2MASK | Fshamt => SHAMTMASK | Ff7 => FUNCT7MASK end.
Definition fshift f := match f with
  | Fopcode => OPCODESHIFT | Frd => RDSHIFT | Ff3 => FUNCT3SHIFT
  | Frs1 => RS1SHIFT | Frs2 => RS2SHIFT | Fshamt => SHAMTSHIFT | Ff7 => FUNCT7SHIFT end.

Lemma dbg_guard_some A dbg ok w (r x : A) : dbg_guard dbg ok w r = Some x -> x = r.
Proof.
  unfold dbg_guard. destruct dbg; [|congruence].
  destruct (get_type w) as [t|]; [|discriminate]. destruct (ok t); congruence.
Qed.

Lemma getter_getf dbg f w x : getter dbg f w = Some x -> x = getf (fmask f) (fshift f) w.
Proof. destruct f; cbn [getter]; try apply dbg_guard_some. unfold get_opcode. intro H. injection H as <-. reflexivity. Qed.
Lemma setter_setf dbg f w v x : setter dbg f w v = Some x -> x = setf (fmask f) (fshift f) w v.
Proof. destruct f; cbn [setter]; try apply dbg_guard_some. unfold set_opcode. intro H. injection H as <-. reflexivity. Qed.

Lemma getf_fget f w : word w -> getf (fmask f) (fshift f) w = fget f w.
Proof.
  intros. destruct f; unfold fget; cbn [fmask fshift f_lo f_len].
  - apply getf_opcode; auto. - apply getf_rd; auto. - apply getf_f3; auto.
  - apply getf_rs1; auto. - apply getf_rs2; auto. - apply getf_shamt; auto. - apply getf_f7; auto.
Qed.

Lemma setf_bits f w v n : word w -> word v -> 0 <= n < 32 ->
  Z.testbit (setf (fmask f) (fshift f) w v) n =
  if (f_lo f <=? n) && (n <? f_lo f + f_len f) then Z.testbit v (n - f_lo f) else Z.testbit w n.
Proof.
  intros Hw Hv Hn. unfold setf.
  destruct f; cbn [fmask fshift f_lo f_len];
    unfold OPCODEMASK, OPCODESHIFT, RDMASK, RDSHIFT, FUNCT3MASK, FUNCT3SHIFT, RS1MASK, RS1SHIFT,
      RS2MASK, RS2SHIFT, SHAMTMASK, SHAMTSHIFT, FUNCT7MASK, FUNCT7SHIFT;
    open_words; bit_goal n Hn.
Qed.

Lemma word_setf f w v : word w -> word v -> word (setf (fmask f) (fshift f) w v).
Proof.
  intros. unfold setf.
  apply word_lor; [apply word_land_l|apply word_land_l]; auto using word_shl32;
    destruct f; vm_compute; discriminate.
Qed.

Lemma fld_bits_eq h l x y :
  0 <= l <= h -> (forall n, l <= n <= h -> Z.testbit x n = Z.testbit y n) -> fld h l x = fld h l y.
Proof.
  intros Hl H. apply Z.bits_inj'. intros n Hn. rewrite !testbit_fld by lia.
  destruct (Z.ltb_spec n (h - l + 1)); [|reflexivity]. cbn [andb]. apply H. lia.
Qed.

Lemma setter_ok dbg f w v w' :
  word w -> word v -> setter dbg f w v = Some w' ->
  word w' /\
  fget f w' = v mod 2 ^ f_len f /\
  (forall g, disjoint f g -> fget g w' = fget g w) /\
  (forall n, 0 <= n < 32 -> ~ (f_lo f <= n < f_lo f + f_len f) -> Z.testbit w' n = Z.testbit w n).
Proof.
  intros Hw Hv H. apply setter_setf in H. subst w'.
  assert (Hr : 0 <= f_lo f /\ 0 < f_len f /\ f_lo f + f_len f <= 32) by (destruct f; cbn; lia).
  assert (Ho : forall n, 0 <= n < 32 -> ~ (f_lo f <= n < f_lo f + f_len f) ->
    Z.testbit (setf (fmask f) (fshift f) w v) n = Z.testbit w n).
  { intros n Hn Hout. rewrite setf_bits by auto.
    destruct (Z.leb_spec (f_lo f) n), (Z.ltb_spec n (f_lo f + f_len f)); cbn [andb]; auto. lia. }
  split; [apply word_setf; auto|]. split; [|split; [|exact Ho]].
  - unfold fget. apply Z.bits_inj'. intros n Hn.
    rewrite testbit_fld by lia. rewrite testbit_mod by lia.
    replace (f_lo f + f_len f - 1 - f_lo f + 1) with (f_len f) by lia.
    destruct (Z.ltb_spec n (f_len f)); [|reflexivity]. cbn [andb].
    rewrite setf_bits by (auto; lia).
    destruct (Z.leb_spec (f_lo f) (n + f_lo f)); [|lia].
    destruct (Z.ltb_spec (n + f_lo f) (f_lo f + f_len f)); [|lia].
    cbn [andb]. f_equal. lia.
  - intros g Hg. assert (0 <= f_lo g /\ 0 < f_len g /\ f_lo g + f_len g <= 32) by (destruct g; cbn; lia).
    unfold fget. apply fld_bits_eq; [lia|]. intros n Hn. apply Ho; unfold disjoint in Hg; lia.
Qed.

Lemma getter_ok dbg f w x : word w -> getter dbg f w = Some x -> x = fget f w.
Proof. intros Hw H. apply getter_getf in H. subst x. apply getf_fget; auto. Qed.

(** ** Immediates *)
Lemma get_type_fld w : word w ->
  get_type w =
  let op := fld 6 0 w in
  if (op =? 55) || (op =? 23) then Some TU
  else if (op =? 19) || (op =? 3) || (op =? 103) then Some TI
  else if op =? 51 then Some TR
  else if op =? 35 then Some TS
  else if op =? 111 then Some TJ
  else if op =? 99 then Some TB
  else if op =? 115 then Some TNONE
  else None.
Proof. intros. unfold get_type, get_opcode. rewrite getf_opcode by auto. reflexivity. Qed.

Ltac eqb_all :=
  repeat match goal with
  | H : context [?a =? ?b] |- _ => destruct (Z.eqb_spec a b); cbn [orb andb] in *
  | |- context [?a =? ?b] => destruct (Z.eqb_spec a b); cbn [orb andb] in *
  end.

(** the type determined by the format *)
Definition fmt_ty (f : fmt) : ity :=
  match f with FmtI | FmtSh => TI | FmtS => TS | FmtB => TB | FmtU => TU | FmtJ => TJ end.

Lemma format_type w f : word w -> format w = Some f -> get_type w = Some (fmt_ty f).
Proof.
  intros Hw. rewrite get_type_fld by auto. unfold format. cbn zeta.
  set (op := fld 6 0 w). set (f3 := fld 14 12 w).
  intro H. eqb_all; try lia; try congruence; injection H as <-; reflexivity.
Qed.

Lemma format_sh w f : word w -> format w = Some f -> fmt_ty f = TI ->
  (((fld 14 12 w =? 1) || (fld 14 12 w =? 5)) && (fld 6 0 w =? 19)) =
  match f with FmtSh => true | _ => false end.
Proof.
  intros Hw. unfold format. cbn zeta.
  set (op := fld 6 0 w). set (f3 := fld 14 12 w).
  intros H Ht. eqb_all; try lia; try congruence; injection H as <-; cbn in Ht; congruence.
Qed.

Lemma format_ext w w' :
  fld 6 0 w' = fld 6 0 w -> fld 14 12 w' = fld 14 12 w -> format w' = format w.
Proof. intros H1 H2. unfold format. rewrite H1, H2. reflexivity. Qed.

Definition setter_imm f w imm :=
  match f with
  | FmtI => i_set w imm | FmtSh => setf SHAMTMASK SHAMTSHIFT w imm | FmtS => s_set w imm
  | FmtB => b_set w imm | FmtU => u_set w imm | FmtJ => j_set w imm end.
Definition getter_imm f w :=
  match f with
  | FmtI => i_get w | FmtSh => getf SHAMTMASK SHAMTSHIFT w | FmtS => s_get w
  | FmtB => b_get w | FmtU => u_get w | FmtJ => j_get w end.

Lemma set_imm_fmt dbg w imm f :
  word w -> format w = Some f -> set_imm dbg w imm = Some (setter_imm f w imm).
Proof.
  intros Hw Hf. unfold set_imm. rewrite (format_type w f Hw Hf).
  pose proof (format_sh w f Hw Hf) as Hs.
  destruct f; cbn [fmt_ty] in *; try reflexivity;
    unfold get_funct3, set_shamt, dbg_guard;
    rewrite (format_type w _ Hw Hf); cbn [fmt_ty has_funct3 has_shamt];
    unfold get_opcode; rewrite getf_opcode, getf_f3 by auto; specialize (Hs eq_refl);
    destruct dbg; rewrite Hs; reflexivity.
Qed.
Lemma get_imm_fmt dbg w f :
  word w -> format w = Some f -> get_imm dbg w = Some (getter_imm f w).
Proof.
  intros Hw Hf. unfold get_imm. rewrite (format_type w f Hw Hf).
  pose proof (format_sh w f Hw Hf) as Hs.
  destruct f; cbn [fmt_ty] in *; try reflexivity;
    unfold get_funct3, get_shamt, dbg_guard;
    rewrite (format_type w _ Hw Hf); cbn [fmt_ty has_funct3 has_shamt];
    unfold get_opcode; rewrite getf_opcode, getf_f3 by auto; specialize (Hs eq_refl);
    destruct dbg; rewrite Hs; reflexivity.
Qed.

Lemma setter_imm_word f w imm : word w -> word imm -> word (setter_imm f w imm).
Proof.
  intros. destruct f; cbn [setter_imm];
    [| apply (word_setf Fshamt); auto | | | |];
    unfold i_set, s_set, b_set, u_set, j_set; words.
Qed.

Lemma setter_imm_out f w imm n :
  word w -> word imm -> 0 <= n < 32 -> imm_bit f n = false ->
  Z.testbit (setter_imm f w imm) n = Z.testbit w n.
Proof.
  intros Hw Hi Hn. destruct f; cbn [setter_imm imm_bit].
  2: { intro Ho. change (setf SHAMTMASK SHAMTSHIFT w imm) with (setf (fmask Fshamt) (fshift Fshamt) w imm).
       rewrite setf_bits by auto. cbn [f_lo f_len]. change (20 + 5) with 25. rewrite Ho. reflexivity. }
  all: unfold i_set, s_set, b_set, u_set, j_set; open_words; tb;
    repeat match goal with |- context [Z.testbit ?x _] => is_var x; generalize (Z.testbit x); intro end;
    cases32 n Hn; vm_compute; intro Ho; try discriminate Ho; clear Ho; bool_fin.
Qed.

Lemma i_rt w imm : word w -> word imm -> i_get (i_set w imm) = to_word (signed 12 imm).
Proof. intros. unfold i_get, i_set. blast. Qed.
Lemma s_rt w imm : word w -> word imm -> s_get (s_set w imm) = to_word (signed 12 imm).
Proof. intros. unfold s_get, s_set. blast. Qed.
Lemma u_rt w imm : word w -> word imm -> u_get (u_set w imm) = imm mod 2 ^ 20.
Proof.
  intros. unfold u_get, u_set. apply word_bits_eq; [words| |].
  - pose proof (Z.mod_pos_bound imm (2 ^ 20)). unfold word. lia.
  - intros n Hn; open_words; bit_goal n Hn.
Qed.
Ltac fldset :=
  apply word_bits_eq; [apply word_fld; lia|apply word_fld; lia|];
  let n := fresh "n" in let H := fresh "H" in intros n H; open_words; bit_goal n H.
Lemma b_set_a w imm : word w -> word imm -> fld 11 8 (b_set w imm) = fld 4 1 imm.
Proof. intros. unfold b_set. fldset. Qed.
Lemma b_set_b w imm : word w -> word imm -> fld 30 25 (b_set w imm) = fld 10 5 imm.
Proof. intros. unfold b_set. fldset. Qed.
Lemma b_set_c w imm : word w -> word imm -> fld 7 7 (b_set w imm) = fld 11 11 imm.
Proof. intros. unfold b_set. fldset. Qed.
Lemma b_set_d w imm : word w -> word imm -> fld 31 31 (b_set w imm) = fld 12 12 imm.
Proof. intros. unfold b_set. fldset. Qed.
Lemma j_set_a w imm : word w -> word imm -> fld 30 21 (j_set w imm) = fld 10 1 imm.
Proof. intros. unfold j_set. fldset. Qed.
Lemma j_set_b w imm : word w -> word imm -> fld 20 20 (j_set w imm) = fld 11 11 imm.
Proof. intros. unfold j_set. fldset. Qed.
Lemma j_set_c w imm : word w -> word imm -> fld 19 12 (j_set w imm) = fld 19 12 imm.
Proof. intros. unfold j_set. fldset. Qed.
Lemma j_set_d w imm : word w -> word imm -> fld 31 31 (j_set w imm) = fld 20 20 imm.
Proof. intros. unfold j_set. fldset. Qed.
Lemma b_rt w imm : word w -> word imm -> b_get (b_set w imm) = to_word (signed 13 (imm - imm mod 2)).
Proof.
  intros. rewrite b_get_spec by (unfold b_set; words). unfold imm_B.
  rewrite b_set_a, b_set_b, b_set_c, b_set_d by auto. blast.
Qed.
Lemma j_rt w imm : word w -> word imm -> j_get (j_set w imm) = to_word (signed 21 (imm - imm mod 2)).
Proof.
  intros. rewrite j_get_spec by (unfold j_set; words). unfold imm_J.
  rewrite j_set_a, j_set_b, j_set_c, j_set_d by auto. blast.
Qed.
Lemma sh_rt w imm : word w -> word imm ->
  getf SHAMTMASK SHAMTSHIFT (setf SHAMTMASK SHAMTSHIFT w imm) = imm mod 32.
Proof.
  intros Hw Hi. rewrite (getf_fget Fshamt) by (apply (word_setf Fshamt); auto).
  destruct (setter_ok false Fshamt w imm _ Hw Hi eq_refl) as (_ & H & _). exact H.
Qed.

Lemma imm_round_trip dbg w imm f :
  word w -> word imm -> format w = Some f ->
  exists w', set_imm dbg w imm = Some w' /\ word w' /\
    get_imm dbg w' = Some (imm_cut f imm) /\
    (forall n, 0 <= n < 32 -> imm_bit f n = false -> Z.testbit w' n = Z.testbit w n).
Proof.
  intros Hw Hi Hf. exists (setter_imm f w imm).
  pose proof (setter_imm_word f w imm Hw Hi) as Hw'.
  assert (Ho : forall n, 0 <= n < 32 -> imm_bit f n = false ->
     Z.testbit (setter_imm f w imm) n = Z.testbit w n)
    by (intros; apply setter_imm_out; auto).
  split; [apply set_imm_fmt; auto|]. split; [exact Hw'|]. split; [|exact Ho].
  assert (Hf' : format (setter_imm f w imm) = Some f).
  { rewrite <- Hf.
    assert (H6 : fld 6 0 (setter_imm f w imm) = fld 6 0 w).
    { apply fld_bits_eq; [lia|]. intros n Hn. apply Ho; [lia|]. destruct f; cbn [imm_bit]; lia. }
    assert (H3 : fld 14 12 (setter_imm f w imm) = fld 14 12 w \/ fmt_ty f = TU \/ fmt_ty f = TJ).
    { destruct f; cbn [fmt_ty]; auto; left; apply fld_bits_eq; try lia; intros n Hn;
        (apply Ho; [lia|cbn [imm_bit]; lia]). }
    destruct H3 as [H3|H3]; [apply format_ext; auto|].
    revert Hf. unfold format. rewrite H6. cbn zeta.
    set (op := fld 6 0 w). intro Hf.
    destruct f; cbn [fmt_ty] in H3; try (destruct H3; discriminate);
      eqb_all; try lia; try congruence. }
  rewrite (get_imm_fmt dbg _ f Hw' Hf'). f_equal.
  destruct f; cbn [getter_imm setter_imm imm_cut].
  - apply i_rt; auto. - apply sh_rt; auto. - apply s_rt; auto.
  - apply b_rt; auto. - apply u_rt; auto. - apply j_rt; auto.
Qed.
