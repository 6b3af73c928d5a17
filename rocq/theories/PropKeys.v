(** * C70 (keys) and C71 (times) *)
Require Import ZArith List Bool Lia.
Require Import Verif.Word Verif.Keys.
Import ListNotations.
Open Scope Z_scope.

(** ** C70 *)

Lemma get_map : forall {A} (f : Z -> A) gal k, get (map (fun g => (g, f g)) gal) k = if in_dec Z.eq_dec k gal then Some (f k) else None.
Proof.
  intros A f. induction gal as [|g r IH]; intros k; [reflexivity|]. cbn [map get]. rewrite IH.
  destruct (in_dec Z.eq_dec k r) as [I|I], (in_dec Z.eq_dec k (g :: r)) as [J|J]; try reflexivity.
  - exfalso. apply J. right. exact I.
  - destruct J as [->|J]; [|contradiction]. rewrite Z.eqb_refl. reflexivity.
  - destruct (Z.eqb_spec k g) as [->|N]; [|reflexivity]. exfalso. apply J. left. reflexivity.
Qed.

Lemma prepare_alloc : forall (K P : Type) (pk : K -> P) b gal other,
  match prepare_keys K P pk (alloc_keys P b gal) other with
  | Some m => (forall k, In k gal -> get other k <> None) /\ forall k, get m k = if in_dec Z.eq_dec k gal then option_map pk (get other k) else None
  | None => exists k, In k gal /\ get other k = None
  end.
Proof.
  intros K P pk b gal other. induction gal as [|g r IH]; [cbn; split; [intros k []|reflexivity]|]. cbn [alloc_keys map prepare_keys].
  fold (alloc_keys P b r). destruct (get other g) as [o|] eqn:G.
  - destruct (prepare_keys K P pk (alloc_keys P b r) other) as [m|].
    + destruct IH as [I1 I2]. split. { intros k [<-|I]; [congruence|auto]. }
      intros k. cbn [get]. rewrite I2. destruct (in_dec Z.eq_dec k r) as [I|I], (in_dec Z.eq_dec k (g :: r)) as [J|J].
      * specialize (I1 k I). destruct (get other k); [reflexivity|contradiction].
      * exfalso. apply J. right. exact I.
      * destruct J as [<-|J]; [|contradiction]. rewrite Z.eqb_refl, G. reflexivity.
      * destruct (Z.eqb_spec k g) as [->|N]; [|reflexivity]. exfalso. apply J. left. reflexivity.
    + destruct IH as (k & I & E). exists k. split; [right; exact I|exact E].
  - exists g. split; [left; reflexivity|exact G].
Qed.

(** Preparing the keys of a secret for parameters with the Galois elements
    [gal'] never fails when the elements of the VM's own parameters are
    among them, and then the evaluation finds exactly for each of its
    elements the prepared encryption for that element. *)
Theorem C70_prepare : forall (S K P : Type) (ek : S -> Z -> K) (pk : K -> P) b gal gal' sk, incl gal gal' ->
  exists m, prepare_keys K P pk (alloc_keys P b gal) (encrypt_keys S K ek gal' sk) = Some m /\
    (forall k, In k gal -> get m k = Some (pk (ek sk k))) /\ (forall k, ~ In k gal -> get m k = None).
Proof.
  intros S K P ek pk b gal gal' sk I. pose proof (prepare_alloc K P pk b gal (encrypt_keys S K ek gal' sk)) as A.
  destruct (prepare_keys _ _ _ _ _) as [m|].
  - exists m. split; [reflexivity|]. destruct A as [A1 A2]. split; intros k H; rewrite A2; destruct (in_dec Z.eq_dec k gal) as [J|J]; try contradiction; [|reflexivity].
    unfold encrypt_keys. rewrite get_map. destruct (in_dec Z.eq_dec k gal') as [J'|J']; [reflexivity|]. exfalso. apply J'. apply I. exact H.
  - exfalso. destruct A as (k & A1 & A2). unfold encrypt_keys in A2. rewrite get_map in A2. destruct (in_dec Z.eq_dec k gal') as [J|J]; [discriminate|]. apply J. apply I. exact A1.
Qed.
Print Assumptions C70_prepare.

(** With keys from elsewhere (`VMKeys::new`, `set_evk_ram`) it panics exactly
    if one is missing, and otherwise prepares the given ones. *)
Theorem C70_other : forall (K P : Type) (pk : K -> P) b gal other,
  (prepare_keys K P pk (alloc_keys P b gal) other = None <-> exists k, In k gal /\ get other k = None) /\
  (forall m, prepare_keys K P pk (alloc_keys P b gal) other = Some m -> forall k, In k gal -> get m k = option_map pk (get other k)).
Proof.
  intros K P pk b gal other. pose proof (prepare_alloc K P pk b gal other) as A. destruct (prepare_keys _ _ _ _ _) as [m|].
  - destruct A as [A1 A2]. split.
    + split; [discriminate|]. intros (k & I & E). exfalso. exact (A1 k I E).
    + intros m' E k I. injection E as <-. rewrite A2. destruct (in_dec Z.eq_dec k gal); [reflexivity|contradiction].
  - split; [split; auto|discriminate].
Qed.
Print Assumptions C70_other.

(** The elements of a trace over 8 coefficients; a client whose keys are for
    fewer coefficients. *)
Example C70_case :
  let pk := fun k : Z * Z => (snd k, fst k) in let ek := fun s k : Z => (s, k) in
  prepare_keys _ _ pk (alloc_keys _ (0, 0) [-1; 5; 9]) (encrypt_keys _ _ ek [-1; 5; 9] 7) = Some [(-1, (-1, 7)); (5, (5, 7)); (9, (9, 7))] /\
  prepare_keys _ _ pk (alloc_keys _ (0, 0) [-1; 5; 9]) (encrypt_keys _ _ ek [-1; 5] 7) = None.
Proof. split; reflexivity. Qed.

(** ** C71 *)

Definition total (ts : list Z) : Z := fold_right Z.add 0 ts.

Lemma total_nonneg : forall ts, Forall (fun t => 0 <= t) ts -> 0 <= total ts.
Proof. intros ts F. induction F; cbn; unfold total in *; lia. Qed.

Lemma sum_total : forall ts acc, Forall (fun t => 0 <= t) ts -> 0 <= acc < max_time ->
  sum_times acc ts = if acc + total ts <? max_time then Some (acc + total ts) else None.
Proof.
  intros ts acc F. revert acc. induction F as [|t r T F IH]; intros acc A; cbn [sum_times total fold_right].
  - rewrite Z.add_0_r. destruct (Z.ltb_spec acc max_time); [reflexivity|lia].
  - fold (total r). pose proof (total_nonneg r F). destruct (Z.ltb_spec (acc + t) max_time).
    + rewrite IH by lia. replace (acc + t + total r) with (acc + (t + total r)) by lia. reflexivity.
    + destruct (Z.ltb_spec (acc + (t + total r)) max_time); [lia|reflexivity].
Qed.

(** The average is the total divided by the number of cycles, rounded down.
    It panics exactly if the total is too large for a `Duration` or the
    number of cycles is a multiple of 2^32: before the first cycle, in
    particular. *)
Theorem C71_average : forall ts, Forall (fun t => 0 <= t) ts ->
  let n := Z.of_nat (length ts) in
  (average_time ts = None <-> 2 ^ 64 * 1000000000 <= total ts \/ n mod 2 ^ 32 = 0) /\
  (n < 2 ^ 32 -> forall a, average_time ts = Some a -> n * a <= total ts < n * (a + 1)).
Proof.
  intros ts F n. assert (E : average_time ts = if total ts <? max_time then if n mod 2 ^ 32 =? 0 then None else Some (total ts / (n mod 2 ^ 32)) else None).
  { unfold average_time. rewrite sum_total; [|exact F|unfold max_time; lia]. cbn [Z.add]. destruct (total ts <? max_time); reflexivity. }
  rewrite E. fold max_time. destruct (Z.ltb_spec (total ts) max_time) as [L|L].
  - destruct (Z.eqb_spec (n mod 2 ^ 32) 0) as [Z0|Z0].
    + split; [split; auto|discriminate].
    + split; [split; [discriminate|intros [A|A]; [lia|contradiction]]|].
      intros H a A. injection A as <-. rewrite Z.mod_small in * by lia. pose proof (Z.div_mod (total ts) n ltac:(lia)). pose proof (Z.mod_pos_bound (total ts) n ltac:(lia)). lia.
  - split; [split; auto|discriminate].
Qed.
Print Assumptions C71_average.

(** It lies between the smallest and the largest time. *)
Theorem C71_between : forall ts lo hi a, Forall (fun t => 0 <= lo <= t /\ t <= hi) ts -> Z.of_nat (length ts) < 2 ^ 32 ->
  average_time ts = Some a -> lo <= a <= hi.
Proof.
  intros ts lo hi a F N A. assert (F0 : Forall (fun t => 0 <= t) ts) by (eapply Forall_impl; [|exact F]; cbn; intros; lia).
  destruct (C71_average ts F0) as [C1 C2]. specialize (C2 N a A).
  assert (NZ : ts <> []). { intros ->. discriminate. }
  assert (B : Z.of_nat (length ts) * lo <= total ts <= Z.of_nat (length ts) * hi).
  { clear - F. induction F as [|t r T F IH]; [cbn; lia|]. cbn [length total fold_right]. fold (total r). lia. }
  assert (P : 0 < Z.of_nat (length ts)) by (destruct ts; [contradiction|cbn [length]; lia]). nia.
Qed.
Print Assumptions C71_between.

(** Ending [n] cycles one after the other. *)
Fixpoint end_cycles {A} (wrapping verbose : bool) (ms : list A) (cycle : Z) (past : list A) : option (list (option A) * Z * list A) :=
  match ms with
  | [] => Some ([], cycle, past)
  | m :: r =>
      do s1 <- end_cycle wrapping verbose m cycle past ;
      let '(shown, cycle1, past1) := s1 in
      do s2 <- end_cycles wrapping verbose r cycle1 past1 ;
      let '(l, c, p) := s2 in Some (shown :: l, c, p)
  end.

Lemma end_from : forall A wrapping verbose (ms past : list A), Z.of_nat (length past + length ms) < 2 ^ 32 ->
  end_cycles wrapping verbose ms (Z.of_nat (length past)) past =
  Some (map (fun m => if verbose then Some m else None) ms, Z.of_nat (length past + length ms), past ++ ms).
Proof.
  intros A w v. induction ms as [|m r IH]; intros past L; cbn [end_cycles map].
  - rewrite app_nil_r. cbn [length]. rewrite Nat.add_0_r. reflexivity.
  - unfold end_cycle. rewrite Nat2Z.id, nth_error_app2, Nat.sub_diag by lia. cbn [nth_error]. cbn [length] in L.
    replace (Z.of_nat (length past) + 1 <? 2 ^ 32) with true by (symmetry; apply Z.ltb_lt; lia).
    replace (Z.of_nat (length past) + 1) with (Z.of_nat (length (past ++ [m]))) by (rewrite app_length; cbn [length]; lia).
    specialize (IH (past ++ [m])). assert (E : (length (past ++ [m]) + length r = length past + S (length r))%nat) by (rewrite app_length; cbn [length]; lia).
    rewrite E in IH. specialize (IH L). rewrite <- app_assoc in IH. cbn [app] in IH. cbn [length].
    destruct v; cbv iota beta; rewrite IH; reflexivity.
Qed.

(** One measurement per cycle, in order; a verbose VM prints after each
    cycle that cycle's own; for fewer than 2^32 cycles. *)
Theorem C71_cycles : forall A wrapping verbose (ms : list A), Z.of_nat (length ms) < 2 ^ 32 ->
  end_cycles wrapping verbose ms 0 [] = Some (map (fun m => if verbose then Some m else None) ms, Z.of_nat (length ms), ms).
Proof. intros A w v ms L. exact (end_from A w v ms [] L). Qed.
Print Assumptions C71_cycles.

Example C71_case : average_time [5; 6; 9] = Some 6 /\ average_time [] = None /\
  end_cycles false true [5; 6; 9] 0 [] = Some ([Some 5; Some 6; Some 9], 3, [5; 6; 9]).
Proof. repeat split; reflexivity. Qed.
