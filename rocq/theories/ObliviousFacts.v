(** * A run is its plan, carried out *)
Require Import ZArith List Bool Lia.
Require Import Verif.Word Verif.Codec Verif.EvalPlain Verif.DebugVM Verif.Glwe Verif.EncMem Verif.EncVM Verif.Expr Verif.Oblivious.
Require Verif.EncSpec Verif.MemClient.
Import ListNotations.
Open Scope nat_scope.

Lemma mapi_mapi {X Y Z} (f : nat -> X -> Y) (g : nat -> Y -> Z) i l : mapi g i (mapi f i l) = mapi (fun i x => g i (f i x)) i l.
Proof. revert i. induction l; intros i; cbn; [reflexivity|]. f_equal. apply IHl. Qed.
Lemma mapi_const {X Y} (f : X -> Y) i l : mapi (fun _ => f) i l = map f l.
Proof. revert i. induction l; intros i; cbn; [reflexivity|]. f_equal. apply IHl. Qed.
Lemma mapi_ext {X Y} (f g : nat -> X -> Y) i l : (forall i x, f i x = g i x) -> mapi f i l = mapi g i l.
Proof. intros E. revert i. induction l; intros i; cbn; [reflexivity|]. rewrite E, IHl. reflexivity. Qed.
Lemma mapi_nth {X} (d : nat -> X) (l : list X) : forall i k, (forall j x, nth_error l j = Some x -> d (k + j) = x) -> i = k -> mapi (fun i _ => d i) i l = l.
Proof.
  induction l as [|x l IH]; intros i k H ->; cbn; [reflexivity|]. f_equal.
  - rewrite <- (Nat.add_0_r k). apply H. reflexivity.
  - apply (IH (S k) (S k)); [|reflexivity]. intros j y Hy. replace (S k + j) with (k + S j) by lia. apply H. exact Hy.
Qed.
Lemma F2_impl {X Y} (R S : X -> Y -> Prop) l m : (forall a b, R a b -> S a b) -> Forall2 R l m -> Forall2 S l m.
Proof. intros I. induction 1; constructor; auto. Qed.

Section Plan.
Context {ct pb fu : Type} (B : alg ct pb fu).
Variable v : evm ct pb fu.
Notation cv := (cval B (cell_of B v) (pcb_of B v) (v_pc v)).
Notation pv := (pval B (cell_of B v) (pcb_of B v) (v_pc v)).
Notation fv := (fval B (cell_of B v) (pcb_of B v) (v_pc v)).
Definition RC (e : cexp) (c : ct) : Prop := cv e = c.
Definition RP (e : pexp) (c : pb) : Prop := pv e = c.
Definition RF (e : fexp) (c : fu) : Prop := fv e = c.
Lemma F2_map {X Y} (f : X -> Y) l m : Forall2 (fun x y => f x = y) l m <-> map f l = m.
Proof.
  split; [induction 1; cbn; congruence|]. intros <-. induction l; cbn; constructor; auto.
Qed.
Lemma syntax_respects : respects (Syntax (log_n B)) B RC RP RF.
Proof.
  unfold RC, RP, RF. constructor; cbn; intros;
    repeat match goal with h : Forall2 (fun x y => _ = y) _ _ |- _ => apply F2_map in h end; subst; auto.
  f_equal. induction H as [|[k x] [k' y] l m [E1 E2] HL IH]; cbn in *; [reflexivity|]. subst. f_equal; try exact IH; reflexivity.
Qed.

Lemma rmem_carry s m n : rmem RC m n -> n = map_mem (fun _ _ _ => cv) s m.
Proof.
  destruct n as [pl sz bt st]. unfold rmem, map_mem, rba. cbn [m_planes m_size m_bits m_state].
  intros (E & <- & <- & <-). f_equal. rewrite mapi_const. symmetry. apply (proj1 (F2_map _ _ _)).
  eapply F2_impl; [|exact E]. intros a [d k] [D K]. cbn in *. subst. rewrite mapi_const. f_equal.
  apply F2_map. exact D.
Qed.
Lemma revm_carry x w : revm RC RP RF x w -> without_shadow w = carry_out B v x.
Proof.
  intros (V1 & V2 & V3 & V4 & V5 & (R1 & R2 & R3 & R4 & R5 & R6 & R7) & V7 & V8 & V9 & V10).
  destruct w as [c d rb rs [mi m1 m2 m3 m4 m5 m6] regs ab az ram pc pcp]. cbn in *. unfold without_shadow, carry_out, map_vm. cbn.
  rewrite (rmem_carry S_imm _ _ R1), (rmem_carry S_rs1 _ _ R2), (rmem_carry S_rs2 _ _ R3), (rmem_carry S_rd _ _ R4),
    (rmem_carry S_rdu _ _ R5), (rmem_carry S_mu _ _ R6), (rmem_carry S_pcu _ _ R7), (rmem_carry S_regs _ _ V7), (rmem_carry S_ram _ _ V8).
  rewrite mapi_const. apply F2_map in V10. unfold RF in V9. subst. reflexivity.
Qed.

Lemma F2_mapi {X Y} (R : Y -> X -> Prop) (k : nat -> X -> Y) l : forall i,
  (forall j x, nth_error l j = Some x -> R (k (i + j) x) x) -> Forall2 R (mapi k i l) l.
Proof.
  induction l as [|x l IH]; intros i H; cbn; constructor.
  - rewrite <- (Nat.add_0_r i). apply H. reflexivity.
  - apply IH. intros j y Hy. replace (S i + j) with (i + S j) by lia. apply H. exact Hy.
Qed.
Lemma mapi_map_mem_named s m : map_mem (fun s i j (_ : unit) => CCell s i j) s (map_mem (fun _ _ _ (_ : ct) => tt) s m) =
  map_mem (fun s i j (_ : ct) => CCell s i j) s m.
Proof.
  unfold map_mem. cbn. f_equal. rewrite mapi_mapi. apply mapi_ext. intros i b. cbn. f_equal. rewrite mapi_mapi. reflexivity.
Qed.
Lemma rmem_named s m : m = mem_of v s -> rmem RC (map_mem (fun s i j (_ : ct) => CCell s i j) s m) m.
Proof.
  intros E. unfold rmem, map_mem. cbn. split; [|auto]. apply F2_mapi. intros i b Hb. split; [|reflexivity]. cbn.
  apply F2_mapi. intros j x Hx. unfold RC. cbn. unfold cell_of. rewrite <- E, Hb. apply nth_error_nth. exact Hx.
Qed.
Lemma named_start : revm RC RP RF (named (public v)) v.
Proof.
  unfold revm, named, public, rroms. unfold map_vm at 1 2 3 4 5. cbn. repeat match goal with |- _ /\ _ => split end; try reflexivity;
    try (rewrite mapi_map_mem_named; apply rmem_named; reflexivity).
  rewrite mapi_mapi. apply F2_mapi. intros j x Hx. unfold RP. cbn. unfold pcb_of. apply nth_error_nth. exact Hx.
Qed.
Theorem run_is_plan chk es :
  option_map without_shadow (ecycles B None chk es v) = option_map (carry_out B v) (plan (log_n B) chk es (public v)).
Proof.
  unfold plan. destruct (r_ecycles _ _ _ _ _ syntax_respects chk es _ _ named_start) as [x w R|]; [|reflexivity].
  cbn. f_equal. apply revm_carry. exact R.
Qed.
End Plan.

(** the public part of a machine after a run comes from the plan *)
Lemma map_map_mem {X Y Z} (f : store -> nat -> nat -> X -> Y) (g : store -> nat -> nat -> Y -> Z) s m :
  map_mem g s (map_mem f s m) = map_mem (fun s i j x => g s i j (f s i j x)) s m.
Proof. unfold map_mem. cbn. f_equal. rewrite mapi_mapi. apply mapi_ext. intros i b. cbn. f_equal. apply mapi_mapi. Qed.
Lemma public_carry_out {ct pb fu} (B : alg ct pb fu) v x : public (carry_out B v x) = public x.
Proof. unfold public, carry_out, map_vm. cbn. rewrite !map_map_mem, !mapi_mapi. reflexivity. Qed.
Lemma public_without_shadow {ct pb fu} (v : evm ct pb fu) : public (without_shadow v) = public v.
Proof. reflexivity. Qed.
Lemma public_run {ct pb fu} (B : alg ct pb fu) v chk es :
  option_map public (ecycles B None chk es v) = option_map public (plan (log_n B) chk es (public v)).
Proof.
  pose proof (run_is_plan B v chk es) as E. destruct (ecycles B None chk es v) as [w|], (plan _ _ _ _) as [x|]; cbn in *; try discriminate E; [|reflexivity].
  assert (E' : without_shadow w = carry_out B v x) by congruence. f_equal. rewrite <- public_without_shadow, E'. apply public_carry_out.
Qed.

(** ** the machines the loader builds *)
Definition shape (s : store) (m : memory poly) : memory unit := map_mem (fun _ _ _ _ => tt) s m.
Lemma mapi_unit_len {X Y} (l : list X) (m : list Y) i : length l = length m -> mapi (fun _ _ => tt) i l = mapi (fun _ _ => tt) i m.
Proof. revert m i. induction l; intros [|y m] i E; cbn in *; try discriminate; [reflexivity|]. f_equal. apply IHl. lia. Qed.
Lemma encrypt_shape log s m d m' : mem_encrypt log m d = Some m' -> shape s m' = shape s m.
Proof.
  unfold mem_encrypt. destruct (0 <? _); [|discriminate]. destruct (_ <=? _); [|discriminate]. intros [= <-].
  unfold shape, map_mem. cbn [m_planes m_size m_bits m_state]. f_equal.
  match goal with |- mapi ?F 0 (map ?G (combine (seq 0 _) _)) = _ =>
    enough (A : forall l i n, mapi F i (map G (combine (seq n (length l)) l)) = mapi F i l) by apply A end.
  induction l as [|b r IH]; intros i n; [reflexivity|].
  cbn. f_equal; [|apply IH]. f_equal. apply mapi_unit_len. apply MemClient.zip_over_length.
Qed.
Lemma load_public log dbg debug rw aw p ram v : EncSpec.load log dbg debug rw aw p ram = Some v ->
  option_map public (evm_new (Ideal log) debug rw aw) = Some (public v).
Proof.
  unfold EncSpec.load. destruct (evm_new (Ideal log) debug rw aw) as [v0|]; [|discriminate].
  destruct (instructions_encrypt log dbg v0 p) as [v1|] eqn:E1; [|discriminate]. intros E2. cbn. f_equal. transitivity (public v1).
  - unfold instructions_encrypt in E1. destruct (match v_debug v0 with Some _ => _ | None => _ end); [|discriminate].
    destruct (_ <=? _); [|discriminate]. destruct (fill _ _) as [r|]; [|discriminate]. destruct (_ <=? _); [|discriminate]. cbv zeta in E1.
    repeat match type of E1 with match ?m with Some _ => _ | None => None end = _ =>
      let e := fresh "M" in destruct m eqn:e; [|discriminate] end.
    assert (E : forall x y : evm poly bool (list Z), Some x = Some y -> public x = public y) by congruence. rewrite <- (E _ _ E1).
    unfold public, map_vm. cbn.
    repeat match goal with h : mem_encrypt _ _ _ = Some _ |- _ => pose proof (fun s => encrypt_shape _ s _ _ _ h); clear h end.
    unfold shape in *. congruence.
  - unfold ram_encrypt in E2. destruct (_ <=? _); [|discriminate].
    destruct (match v_debug v1 with Some _ => _ | None => _ end); [|discriminate].
    destruct (mem_encrypt log (v_ram v1) ram) as [m|] eqn:M; [|discriminate].
    assert (E : forall x y : evm poly bool (list Z), Some x = Some y -> public x = public y) by congruence. rewrite <- (E _ _ E2).
    unfold public, map_vm. cbn. pose proof (encrypt_shape _ S_ram _ _ _ M). unfold shape in *. congruence.
Qed.
Lemma new_public log rw aw d d' :
  option_map public (evm_new (Ideal log) d rw aw) = option_map public (evm_new (Ideal log) d' rw aw).
Proof.
  unfold evm_new. repeat match goal with |- context [match ?m with Some _ => _ | None => None end] => destruct m; [|reflexivity] end. reflexivity.
Qed.
Lemma load_same_public log dbg debug dbg' debug' rw aw p ram v p' ram' v' :
  EncSpec.load log dbg debug rw aw p ram = Some v -> EncSpec.load log dbg' debug' rw aw p' ram' = Some v' -> public v = public v'.
Proof. intros H H'. apply load_public in H, H'. rewrite (new_public log rw aw debug debug') in H. congruence. Qed.
