(** * The repository's homomorphic tests: C81 *)
Require Import ZArith List Bool Lia.
Require Import Verif.Word Verif.Isa Verif.Codec Verif.EvalPlain Verif.EvalSpec Verif.EvalFacts Verif.Bdd Verif.CircFacts Verif.Glwe Verif.Par Verif.ListFacts
  Verif.EncMem Verif.MemSpec Verif.MemFacts Verif.MemOps Verif.MemClient Verif.MemSeq Verif.EncEval Verif.EncSpec Verif.EncFacts
  Verif.RepoTests.
Require Verif.PropMem Verif.PropEnc Verif.AsmFacts Verif.PropCirc.
Import ListNotations.
Open Scope Z_scope.

Lemma enc_prep w : word w -> prepared (encrypt_prepared w) w.
Proof.
  intro W. apply prepared_intro; [now apply is_word_word|reflexivity|].
  intros i Hi. unfold encrypt_prepared.
  rewrite (nth_indep _ false (Z.testbit w (Z.of_nat 0))) by (rewrite map_length, seq_length; exact Hi).
  rewrite (map_nth (fun i => Z.testbit w (Z.of_nat i))), seq_nth by exact Hi. reflexivity.
Qed.

(** ** pc_update *)
Definition is_draw (d : draw) : Prop := let '(p, im, x, y) := d in word p /\ word im /\ word x /\ word y.
(** the case increments its first operand and that operand is the largest word *)
Definition overflows (c : pc_op * adjust) (d : draw) : Prop :=
  let '(p, im, x, y) := d in
  (snd c = Adj_lt \/ snd c = Adj_lt_signed) /\ x = 2 ^ 32 - 1 /\ y = 2 ^ 32 - 1.

Lemma unless_ok dbg u : word (u_rs1 u) -> word (u_rs2 u) ->
  (dbg = true /\ u_rs1 u = 2 ^ 32 - 1 /\ u_rs2 u = 2 ^ 32 - 1 /\ unless_equal dbg u = None) \/
  (~ (dbg = true /\ u_rs1 u = 2 ^ 32 - 1 /\ u_rs2 u = 2 ^ 32 - 1) /\
   exists x, unless_equal dbg u = Some x /\ word x /\ x <> u_rs2 u).
Proof.
  unfold unless_equal, incr, word. intros W1 W2. change (2 ^ 32) with 4294967296 in *.
  destruct (Z.eqb_spec (u_rs1 u) (u_rs2 u)) as [E|E].
  - destruct dbg; cbn [andb].
    + destruct (Z.eqb_spec (u_rs1 u) 0xFFFFFFFF) as [F|F].
      * left. repeat split; lia.
      * right. split; [lia|]. eexists. split; [reflexivity|]. unfold u32. rewrite Z.mod_small by lia. lia.
    + right. split; [intuition discriminate|]. eexists. split; [reflexivity|]. unfold u32.
      destruct (Z.eq_dec (u_rs1 u) 0xFFFFFFFF) as [F|F].
      * rewrite F. change ((0xFFFFFFFF + 1) mod 4294967296) with 0. lia.
      * rewrite Z.mod_small by lia. lia.
  - right. split; [lia|]. exists (u_rs1 u). auto.
Qed.

Lemma i32_bounds x : word x -> - 2147483648 <= i32 x < 2147483648.
Proof. unfold word, i32. change (2 ^ 32) with 4294967296. intro. destruct (Z.ltb_spec x 2147483648); lia. Qed.
Lemma u32_i32 x : word x -> u32 (i32 x) = x.
Proof.
  unfold word, i32, u32. change (2 ^ 32) with 4294967296. intro. destruct (Z.ltb_spec x 2147483648).
  - apply Z.mod_small. lia.
  - replace (x - 4294967296) with (x + (-1) * 4294967296) by lia. rewrite Z.mod_add by lia. apply Z.mod_small. lia.
Qed.
Lemma max_i32 x y : word x -> word y -> u32 (Z.max (i32 x) (i32 y)) = if i32 x <? i32 y then y else x.
Proof. intros. destruct (Z.ltb_spec (i32 x) (i32 y)); [rewrite Z.max_r by lia|rewrite Z.max_l by lia]; now apply u32_i32. Qed.
Lemma min_i32 x y : word x -> word y -> u32 (Z.min (i32 x) (i32 y)) = if i32 x <? i32 y then x else y.
Proof. intros. destruct (Z.ltb_spec (i32 x) (i32 y)); [rewrite Z.min_l by lia|rewrite Z.min_r by lia]; now apply u32_i32. Qed.
Lemma i32_inj x y : word x -> word y -> i32 x = i32 y -> x = y.
Proof. intros. rewrite <- (u32_i32 x), <- (u32_i32 y) by auto. congruence. Qed.

(** what an adjusted case looks like *)
Definition related (a : adjust) (x y : Z) : Prop :=
  match a with
  | Adj_none => True
  | Adj_eq => x = y
  | Adj_lt => x < y
  | Adj_gte => x >= y
  | Adj_lt_signed => s32 x < s32 y
  | Adj_gte_signed => s32 x >= s32 y
  end.
Lemma case_ok dbg c d : is_draw d ->
  (dbg = true /\ overflows c d /\ pc_case dbg c d = None) \/
  (~ (dbg = true /\ overflows c d) /\ exists u, pc_case dbg c d = Some u /\ u_op u = fst c /\
    u_pc u = fst (fst (fst d)) /\ u_imm u = snd (fst (fst d)) mod 2 ^ 20 /\
    word (u_rs1 u) /\ word (u_rs2 u) /\ related (snd c) (u_rs1 u) (u_rs2 u)).
Proof.
  destruct d as [[[p im] x] y]. intros (Wp & Wi & Wx & Wy). cbn [fst snd]. unfold pc_case, pcu_new, set_imm.
  cbn [set_pc set_rs1 set_rs2 u_op u_rs1 u_rs2 u_pc u_imm].
  assert (M : Z.land im 0xFFFFF = im mod 2 ^ 20) by (change 0xFFFFF with (Z.ones 20); now rewrite Z.land_ones by lia).
  rewrite M. clear M. unfold overflows. destruct c as [o a]. cbn [fst snd].
  set (u := set_rs2 _ y). assert (U1 : u_rs1 u = x) by reflexivity. assert (U2 : u_rs2 u = y) by reflexivity.
  assert (U3 : u_pc u = p) by reflexivity. assert (U4 : u_imm u = im mod 2 ^ 20) by reflexivity.
  assert (U5 : u_op u = o) by reflexivity. clearbody u.
  assert (Wx' : word (u_rs1 u)) by (rewrite U1; auto). assert (Wy' : word (u_rs2 u)) by (rewrite U2; auto).
  destruct a; cbn [adjusted].
  1,2,4,6: right; split; [intros (_ & [H|H] & _); discriminate|]; eexists; split; [reflexivity|];
    unfold set_rs1, set_rs2; cbn [u_op u_rs1 u_rs2 u_pc u_imm related];
    do 3 (split; [assumption|]).
  - auto.
  - rewrite U1. auto.
  - unfold word in *. repeat split; lia.
  - rewrite U1, U2. rewrite min_i32, max_i32 by auto. rewrite <- !i32_s32 by (destruct (_ <? _); auto).
    destruct (Z.ltb_spec (i32 x) (i32 y)), (Z.ltb_spec (i32 y) (i32 x)); repeat split; try apply Wx; try apply Wy; lia.
  - destruct (unless_ok dbg u Wx' Wy') as [(D & E1 & E2 & E)|(N & v & E & Wv & Ne)]; rewrite E.
    + left. rewrite U1 in E1. rewrite U2 in E2. auto.
    + right. rewrite U1, U2 in N. split; [tauto|]. eexists; split; [reflexivity|].
      unfold set_rs1, set_rs2; cbn [u_op u_rs1 u_rs2 u_pc u_imm related]. do 3 (split; [assumption|]).
      unfold word in *. repeat split; lia.
  - destruct (unless_ok dbg u Wx' Wy') as [(D & E1 & E2 & E)|(N & v & E & Wv & Ne)]; rewrite E.
    + left. rewrite U1 in E1. rewrite U2 in E2. auto.
    + right. rewrite U1, U2 in N. split; [tauto|]. eexists; split; [reflexivity|].
      unfold set_rs1, set_rs2; cbn [u_op u_rs1 u_rs2 u_pc u_imm related]. do 3 (split; [assumption|]).
      rewrite max_i32, min_i32 by auto. rewrite <- !i32_s32 by (destruct (_ <? _); auto).
      assert (i32 v <> i32 (u_rs2 u)) by (intro K; apply Ne; now apply i32_inj).
      destruct (Z.ltb_spec (i32 v) (i32 (u_rs2 u))), (Z.ltb_spec (i32 (u_rs2 u)) (i32 v)); repeat split; try apply Wv; try apply Wy'; lia.
Qed.

Lemma check_pc log u : In (u_op u) PC_LIST -> word (u_pc u) -> word (u_rs1 u) -> word (u_rs2 u) -> 0 <= u_imm u < 2 ^ 20 ->
  expected_update u = pc_spec (u_op u) (to_word (signed 20 (u_imm u))) (u_rs1 u) (u_rs2 u) (u_pc u) /\
  pc_check log u = Some tt.
Proof.
  intros Ho Wp W1 W2 Wi. assert (Wi' : word (u_imm u)) by (unfold word; lia).
  assert (E : expected_update u = pc_spec (u_op u) (to_word (signed 20 (u_imm u))) (u_rs1 u) (u_rs2 u) (u_pc u)).
  { unfold expected_update. rewrite AsmFacts.sext_19 by auto. apply pc_eval_spec; auto. apply to_word_range. }
  split; [exact E|]. unfold pc_check.
  assert (K : pc_id (u_op u) mod 16 = pc_id (u_op u)) by (now destruct (u_op u)).
  pose proof (pc_sel_ok log _ _ _ _ (encrypt_prepared (pc_id (u_op u))) _ _ _ _ (pc_id (u_op u))
    (enc_prep _ W1) (enc_prep _ W2) (enc_prep _ Wp) (enc_prep _ Wi')) as P.
  assert (Wk : word (pc_id (u_op u))) by (destruct (u_op u); split; vm_compute; congruence).
  rewrite K in P. specialize (P (enc_prep _ Wk) (in_map _ _ _ Ho)).
  rewrite (enc_decrypt _ _ P). unfold pc_sel.
  replace (by_id pc_id (pc_id (u_op u)) PC_LIST) with (Some (u_op u)) by (now destruct (u_op u)).
  rewrite E, Z.eqb_refl. reflexivity.
Qed.

(** The test passes, except that a debug build panics if a case that increments
    its first operand draws the largest word for both. *)
Theorem C81_pc_update :
  forall log dbg draws, length draws = length pc_cases -> Forall is_draw draws ->
    (test_pc_update log dbg draws = Some tt <->
     ~ (dbg = true /\ exists i c d, nth_error pc_cases i = Some c /\ nth_error draws i = Some d /\ overflows c d)).
Proof.
  intros log dbg draws L F. unfold test_pc_update.
  assert (IN : Forall (fun c => In (fst c) PC_LIST) pc_cases) by (repeat (apply Forall_cons; [cbn; tauto|]); apply Forall_nil).
  revert draws L F IN. generalize pc_cases. induction l as [|c cs IH]; intros [|d ds] L F IN; try discriminate.
  - cbn. split; [|auto]. intros _ (_ & [|i] & c & d & H & _); discriminate.
  - injection L as L. inversion F as [|? ? Fd Fs]; subst. inversion IN as [|? ? Ic Is]; subst.
    cbn [pc_build]. specialize (IH ds L Fs Is).
    destruct (case_ok dbg c d Fd) as [(D & O & E)|(N & u & E & U1 & U2 & U3 & U4 & U5 & _)]; rewrite E.
    + split; [discriminate|]. intro H. exfalso. apply H. split; [exact D|]. exists 0%nat, c, d. cbn. auto.
    + destruct d as [[[p im] x] y]. destruct Fd as (Wp & Wi & _). cbn [fst snd] in U2, U3.
      assert (C : pc_check log u = Some tt).
      { apply check_pc; auto; [now rewrite U1|now rewrite U2|]. rewrite U3. apply Z.mod_pos_bound. lia. }
      destruct (pc_build dbg cs ds) as [us|] eqn:B.
      * cbn [all_pass]. rewrite C. rewrite IH. split; intros H (D & i & c' & d' & H1 & H2 & H3); apply H; (split; [exact D|]).
        { destruct i as [|i]; [|exists i, c', d'; auto]. exfalso. apply N. cbn in H1, H2.
          injection H1 as <-. injection H2 as <-. auto. }
        { exists (S i), c', d'. auto. }
      * split; [discriminate|]. intro H. exfalso.
        assert (K : None = Some tt) by (apply IH; intros (D & i & c' & d' & H1 & H2 & H3); apply H; split; [exact D|];
          exists (S i), c', d'; auto). discriminate.
Qed.
Print Assumptions C81_pc_update.
Example C81_pc_case :
  let ds := repeat (0x1000, 0xFFFFFFF0, 7, 0x80000000) 15 in
  Forall is_draw ds /\ test_pc_update 1 true ds = Some tt /\
  test_pc_update 1 true (repeat (0x1000, 0xFFFFFFF0, 0xFFFFFFFF, 0xFFFFFFFF) 15) = None /\
  test_pc_update 1 false (repeat (0x1000, 0xFFFFFFF0, 0xFFFFFFFF, 0xFFFFFFFF) 15) = Some tt.
Proof.
  split; [|vm_compute; auto]. apply Forall_forall. intros d H. apply repeat_spec in H. subst. unfold is_draw, word. lia.
Qed.

(** Whatever is drawn, each of the six branches is tested once taken and once not. *)
Definition branch_cond (o : pc_op) : option cond :=
  match o with PBEQ => Some EQ | PBNE => Some NE | PBLT => Some LT | PBGE => Some GE | PBLTU => Some LTU | PBGEU => Some GEU | _ => None end.
Theorem C81_both_directions :
  forall o k, branch_cond o = Some k -> forall t : bool,
    exists i c, nth_error pc_cases i = Some c /\ fst c = o /\
      (forall j c', nth_error pc_cases j = Some c' -> fst c' = o -> snd c' = snd c -> j = i) /\
      forall dbg p im x y u, is_draw (p, im, x, y) -> pc_case dbg c (p, im, x, y) = Some u ->
        taken k (u_rs1 u) (u_rs2 u) = t /\
        expected_update u = if t then to_word (p + signed 20 im) else to_word (p + 4).
Proof.
  assert (G : forall c k t, In (fst c) PC_LIST -> branch_cond (fst c) = Some k ->
    (forall a b, word a -> word b -> related (snd c) a b -> taken k a b = t) ->
    forall dbg p im x y u, is_draw (p, im, x, y) -> pc_case dbg c (p, im, x, y) = Some u ->
        taken k (u_rs1 u) (u_rs2 u) = t /\
        expected_update u = if t then to_word (p + signed 20 im) else to_word (p + 4)).
  { intros c k t Hin Hb HR dbg p im x y u D E.
    destruct (case_ok dbg c _ D) as [(_ & _ & E')|(_ & u' & E' & U1 & U2 & U3 & W1 & W2 & R)]; [congruence|].
    assert (u' = u) by congruence. subst u'. cbn [fst snd] in U2, U3.
    pose proof (HR _ _ W1 W2 R) as T. split; [exact T|]. destruct D as (Wp & Wi & _).
    assert (WI : 0 <= u_imm u < 2 ^ 20) by (rewrite U3; apply Z.mod_pos_bound; lia).
    destruct (check_pc 0 u) as [X _]; auto; [now rewrite U1|now rewrite U2|]. rewrite X, U1, U2, U3.
    assert (S20 : s32 (to_word (signed 20 (im mod 2 ^ 20))) = signed 20 im).
    { unfold signed, low. rewrite Z.mod_mod by lia. pose proof (Z.mod_pos_bound im (2 ^ 20) ltac:(lia)).
      rewrite TestStep.s32_to_word; [reflexivity|]. destruct (Z.ltb_spec (im mod 2 ^ 20) (2 ^ (20 - 1))); lia. }
    unfold pc_spec. rewrite S20. destruct (fst c); try discriminate; injection Hb as <-; rewrite T; reflexivity. }
  assert (Hs : forall c k t i, nth_error pc_cases i = Some c -> branch_cond (fst c) = Some k ->
    (forall j c', nth_error pc_cases j = Some c' -> fst c' = fst c -> snd c' = snd c -> j = i) ->
    (forall a b, word a -> word b -> related (snd c) a b -> taken k a b = t) ->
    exists i c', nth_error pc_cases i = Some c' /\ fst c' = fst c /\
      (forall j c'', nth_error pc_cases j = Some c'' -> fst c'' = fst c -> snd c'' = snd c' -> j = i) /\
      forall dbg p im x y u, is_draw (p, im, x, y) -> pc_case dbg c' (p, im, x, y) = Some u ->
        taken k (u_rs1 u) (u_rs2 u) = t /\
        expected_update u = if t then to_word (p + signed 20 im) else to_word (p + 4)).
  { intros c k t i N B U R. exists i, c. split; [exact N|]. split; [reflexivity|]. split; [exact U|].
    apply G; auto. destruct (fst c); cbn; tauto. }
  assert (Uq : forall i c, nth_error pc_cases i = Some c ->
    forall j c', nth_error pc_cases j = Some c' -> fst c' = fst c -> snd c' = snd c -> j = i).
  { intros i c N j c' N' E1 E2. assert (c' = c) by (destruct c, c'; cbn in *; congruence). subst c'.
    assert (ND : NoDup pc_cases) by (repeat (apply NoDup_cons; [cbn; intuition discriminate|]); apply NoDup_nil).
    apply (proj1 (NoDup_nth_error pc_cases) ND); [apply nth_error_Some; congruence|congruence]. }
  intros o k Hk t.
  assert (R : forall i c, nth_error pc_cases i = Some c -> fst c = o ->
    (forall a b, word a -> word b -> related (snd c) a b -> taken k a b = t) ->
    exists i c, nth_error pc_cases i = Some c /\ fst c = o /\
      (forall j c', nth_error pc_cases j = Some c' -> fst c' = o -> snd c' = snd c -> j = i) /\
      forall dbg p im x y u, is_draw (p, im, x, y) -> pc_case dbg c (p, im, x, y) = Some u ->
        taken k (u_rs1 u) (u_rs2 u) = t /\
        expected_update u = if t then to_word (p + signed 20 im) else to_word (p + 4)).
  { intros i c N E R. subst o. apply (Hs c k t i N Hk); auto. eapply Uq; eassumption. }
  destruct o; try discriminate; injection Hk as <-; destruct t;
  match goal with
  | H : forall i c, _ -> fst c = PBEQ -> (_ -> _ -> _ -> _ -> _ -> _ = true) -> _ |- _ => apply (H 0%nat (PBEQ, Adj_eq))
  | H : forall i c, _ -> fst c = PBEQ -> (_ -> _ -> _ -> _ -> _ -> _ = false) -> _ |- _ => apply (H 1%nat (PBEQ, Adj_lt))
  | H : forall i c, _ -> fst c = PBNE -> (_ -> _ -> _ -> _ -> _ -> _ = true) -> _ |- _ => apply (H 2%nat (PBNE, Adj_lt))
  | H : forall i c, _ -> fst c = PBNE -> (_ -> _ -> _ -> _ -> _ -> _ = false) -> _ |- _ => apply (H 3%nat (PBNE, Adj_eq))
  | H : forall i c, _ -> fst c = PBLTU -> (_ -> _ -> _ -> _ -> _ -> _ = true) -> _ |- _ => apply (H 4%nat (PBLTU, Adj_lt))
  | H : forall i c, _ -> fst c = PBLTU -> (_ -> _ -> _ -> _ -> _ -> _ = false) -> _ |- _ => apply (H 5%nat (PBLTU, Adj_gte))
  | H : forall i c, _ -> fst c = PBGEU -> (_ -> _ -> _ -> _ -> _ -> _ = true) -> _ |- _ => apply (H 6%nat (PBGEU, Adj_gte))
  | H : forall i c, _ -> fst c = PBGEU -> (_ -> _ -> _ -> _ -> _ -> _ = false) -> _ |- _ => apply (H 7%nat (PBGEU, Adj_lt))
  | H : forall i c, _ -> fst c = PBLT -> (_ -> _ -> _ -> _ -> _ -> _ = true) -> _ |- _ => apply (H 8%nat (PBLT, Adj_lt_signed))
  | H : forall i c, _ -> fst c = PBLT -> (_ -> _ -> _ -> _ -> _ -> _ = false) -> _ |- _ => apply (H 9%nat (PBLT, Adj_gte_signed))
  | H : forall i c, _ -> fst c = PBGE -> (_ -> _ -> _ -> _ -> _ -> _ = true) -> _ |- _ => apply (H 10%nat (PBGE, Adj_gte_signed))
  | H : forall i c, _ -> fst c = PBGE -> (_ -> _ -> _ -> _ -> _ -> _ = false) -> _ |- _ => apply (H 11%nat (PBGE, Adj_lt_signed))
  end; try reflexivity; intros a b _ _ HR; cbn [related snd] in HR; cbn [taken];
  first [apply Z.eqb_eq|apply Z.eqb_neq|apply Z.ltb_lt|apply Z.ltb_ge|apply Z.leb_le|apply Z.leb_gt
        |apply negb_true_iff, Z.eqb_neq|apply negb_false_iff, Z.eqb_eq|apply negb_true_iff, Z.ltb_ge|apply negb_false_iff, Z.ltb_lt
        |apply Z.geb_le|idtac]; try lia.
Qed.
Print Assumptions C81_both_directions.

(** ** ram_offset *)
(** the test has one pair of operands; it would pass for every other *)
Theorem C81_ram_offset :
  forall log rs1 imm, word rs1 -> word imm -> test_ram_offset log rs1 imm = Some tt.
Proof.
  intros log x y Wx Wy. unfold test_ram_offset, ram_offset_enc. cbn [a_circ2 Ideal].
  destruct (enc_prep _ Wx) as [_ ->], (enc_prep _ Wy) as [_ ->]. unfold circ2_word. rewrite PropCirc.C22_ram_offset_circuit by auto.
  cbn [fhe_of_option]. rewrite (enc_decrypt _ (to_word (x + y - 2 ^ 18))) by (apply enc_word, is_word_word, to_word_range).
  replace (wsub (wadd x y) 0x40000) with (to_word (x + y - 2 ^ 18)).
  - rewrite Z.eqb_refl. reflexivity.
  - unfold wsub, wadd, u32, to_word. change (2 ^ 32) with 4294967296. change (2 ^ 18) with 0x40000.
    rewrite Zminus_mod_idemp_l. reflexivity.
Qed.
Print Assumptions C81_ram_offset.
Example C81_ram_case : test_ram_offset 1 0x00040fe0 0x0000001c = Some tt.
Proof. vm_compute. reflexivity. Qed.

(** ** init_one_op *)
Lemma all_pass_iff {T} (f : T -> option unit) l : all_pass f l = Some tt <-> forall x, In x l -> f x = Some tt.
Proof.
  induction l as [|x l IH]; cbn [all_pass]; [cbn; tauto|]. split.
  - destruct (f x) as [[]|] eqn:E; [|discriminate]. intros H y [<-|Hy]; auto. now apply IH.
  - intro H. rewrite (H x (or_introl eq_refl)). apply IH. intros y Hy. apply H. now right.
Qed.
(** The test compares LB too; it passes exactly when the loaded byte it draws is
    not negative.  So half of the draws do not show that LB lacks the sign extension. *)
Theorem C81_one_op :
  forall log imm rs1 rs2 pc ram, word imm -> word rs1 -> word rs2 -> word pc -> word ram ->
    (test_one_op log imm rs1 rs2 pc ram = Some tt <-> ram mod 256 < 128).
Proof.
  intros log im x y p ram Wi Wx Wy Wp Wr. unfold test_one_op. rewrite all_pass_iff.
  assert (A : forall o, In o RD_RV32I -> exists r v, rd_eval_enc (Ideal log) o (encrypt_prepared x) (encrypt_prepared y) (encrypt_prepared im) (encrypt_prepared p) (fhe_of_word ram) = Some r /\
      rd_eval (match o with RLB => RLBU | _ => o end) im x y p ram = Some v /\ decrypt_word r = v).
  { intros o Ho. apply PropEnc.C26_register_evaluation; auto using enc_prep. apply enc_word. now apply is_word_word. }
  assert (LB : op_check log im x y p ram RLB = Some tt <-> ram mod 256 < 128).
  { unfold op_check. destruct (A RLB) as (r & v & -> & V & ->); [cbn; tauto|]. cbn [rd_eval] in V |- *. injection V as <-.
    assert (M : Z.land ram 0xFF = ram mod 256) by (change 0xFF with (Z.ones 8); now rewrite Z.land_ones by lia).
    rewrite (sext_7 _ Wr), byte_0, M. pose proof (Z.mod_pos_bound ram 256 ltac:(lia)) as B.
    change (2 ^ 8) with 256. unfold signed, low. change (2 ^ 8) with 256. change (2 ^ (8 - 1)) with 128. rewrite Z.mod_mod by lia.
    unfold to_word. change (2 ^ 32) with 4294967296.
    destruct (Z.ltb_spec (ram mod 256) 128).
    - rewrite (Z.mod_small (ram mod 256) 4294967296), Z.eqb_refl by lia. tauto.
    - replace (ram mod 256 - 256) with (ram mod 256 + 4294967040 + (-1) * 4294967296) by lia.
      rewrite Z.mod_add, (Z.mod_small (ram mod 256 + 4294967040)) by lia. destruct (Z.eqb_spec (ram mod 256) (ram mod 256 + 4294967040)); [lia|].
      split; [discriminate|lia]. }
  split.
  - intro H. apply LB, H. cbn; tauto.
  - intros H o Ho. destruct (A o Ho) as (r & v & E & V & D).
    destruct o; try exact (proj2 LB H); unfold op_check; rewrite E, V, D, Z.eqb_refl; reflexivity.
Qed.
Print Assumptions C81_one_op.
Example C81_one_case :
  test_one_op 1 0xFFFFF800 0x80000001 0x1F 0x40 0x7F = Some tt /\ test_one_op 1 0xFFFFF800 0x80000001 0x1F 0x40 0x80 = None.
Proof. vm_compute. auto. Qed.

(** ** memory *)
Theorem C81_memory :
  forall log threads size o1 o2 o3 o4 data idx value,
    Z.of_nat size <= 2 ^ 32 -> length data = size -> Forall is_word data -> (idx < size)%nat -> is_word value ->
    par_order threads 32 o1 -> par_order threads 32 o2 -> par_order threads 32 o3 -> par_order threads 32 o4 ->
    test_memory log threads size o1 o2 o3 o4 data idx value = Some tt.
Proof.
  intros log threads size o1 o2 o3 o4 data idx value HS L F Hi Wv P1 P2 P3 P4. unfold test_memory.
  destruct (alloc_shaped log size ltac:(lia)) as (m0 & -> & H0).
  pose proof (holds_shaped log _ _ H0) as S. rewrite repeat_length in S.
  pose proof (encrypt_eq log size m0 data S F) as E. rewrite L in E.
  rewrite (proj2 (Nat.leb_le _ _)) in E by (apply Nat.div_le_upper_bound; lia). destruct E as (m1 & -> & H1).
  assert (PD : padded size data = data).
  { unfold padded. rewrite firstn_app, L, Nat.sub_diag, firstn_O, app_nil_r. rewrite <- L. apply firstn_all. }
  rewrite PD in H1. clear PD.
  assert (AD : forall m ws, holds log m ws -> length ws = size -> addresses (encrypt_prepared (Z.of_nat idx)) 0 (m_bits m) idx).
  { intros m ws (_ & B & _) Lw. rewrite Lw in B. destruct (bit_len_bounds _ _ B) as (B1 & B2 & B3).
    assert (m_bits m <= 32)%nat.
    { destruct (le_lt_dec (m_bits m) 32) as [|G]; auto. exfalso.
      assert (K : (2 ^ (m_bits m - 1) < size)%nat) by (apply B3; lia).
      apply Nat2Z.inj_lt in K. rewrite Nat2Z.inj_pow in K. change (Z.of_nat 2) with 2 in K.
      assert (2 ^ 32 <= 2 ^ Z.of_nat (m_bits m - 1)) by (apply Z.pow_le_mono_r; lia). lia. }
    assert (W : word (Z.of_nat idx)) by (unfold word; lia).
    pose proof (addr_ok _ _ 0 (m_bits m) (enc_prep _ W) ltac:(lia)) as A.
    change (2 ^ Z.of_nat 0) with 1 in A. rewrite Z.div_1_r, Z.mod_small, Nat2Z.id in A; [exact A|].
    split; [lia|]. rewrite <- (Nat2Z.inj_pow 2). lia. }
  destruct (nth_error_lt _ data idx ltac:(lia)) as [x1 X1].
  pose proof (nth_error_nth _ _ 0 X1) as N1.
  destruct (PropMem.C29_read_is_array_read log threads o1 m1 data _ 0 idx H1 P1 (AD _ _ H1 L)) as (r1 & -> & D1).
  rewrite X1, (enc_decrypt _ _ D1), N1, Z.eqb_refl.
  destruct (PropMem.C30_read_write_back log threads o2 m1 data _ 0 idx H1 ltac:(lia) P2 (AD _ _ H1 L)) as (m3 & r2 & -> & D2 & _ & R).
  rewrite (enc_decrypt _ _ D2), N1, Z.eqb_refl.
  destruct (R threads o3 _ _ P3 (enc_word _ Wv)) as (m4 & -> & H4).
  assert (L4 : length (put_word data idx value) = size) by (rewrite put_word_length; lia).
  destruct (PropMem.C29_read_is_array_read log threads o4 m4 _ _ 0 idx H4 P4 (AD _ _ H4 L4)) as (r3 & -> & D3).
  rewrite put_word_nth, Nat.eqb_refl in D3 by lia. rewrite (enc_decrypt _ _ D3), Z.eqb_refl.
  rewrite (decrypt_eq log m4 _ (repeat 0 size) H4); rewrite ?repeat_length, ?L4.
  - rewrite <- L4 at 1. rewrite firstn_all. rewrite skipn_all2 by (rewrite repeat_length; lia). rewrite app_nil_r.
    destruct (nth_error_lt _ (put_word data idx value) idx ltac:(lia)) as [z X4]. rewrite X4.
    apply nth_error_nth with (d := 0) in X4. rewrite put_word_nth, Nat.eqb_refl in X4 by lia. subst z. rewrite Z.eqb_refl. reflexivity.
  - apply Forall_forall. intros w Hw. apply repeat_spec in Hw. subst. unfold is_word. lia.
  - apply Nat.div_le_upper_bound; lia.
Qed.
Print Assumptions C81_memory.
Example C81_memory_case :
  let s := PropMem.seq_order 1 32 in
  par_order 1 32 s /\ test_memory 2 1 10 s s s s (map Z.of_nat (seq 0 10)) 7 0xDEADBEEF = Some tt.
Proof. split; [eexists; split; [reflexivity|]; apply ParFacts.interleave_seq|vm_compute; reflexivity]. Qed.
