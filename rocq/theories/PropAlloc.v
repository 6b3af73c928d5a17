(** * Heap blocks (C42) *)
Require Import ZArith List Bool Lia.
Require Import Verif.Word Verif.Alloc.
Import ListNotations.
Open Scope Z_scope.

(** a layout as [core::alloc::Layout] guarantees it: a size and a power-of-two
    alignment of the 32-bit machine *)
Definition layout (r : request) : Prop :=
  0 <= r_size r < 2 ^ 32 /\ exists k, 0 <= k < 32 /\ r_align r = 2 ^ k.
(** the least multiple of [a] that is at least [x] *)
Definition next_multiple (a x y : Z) : Prop := (a | y) /\ x <= y < x + a.

Lemma land_low x k : 0 <= k -> Z.land x (2 ^ k - 1) = x mod 2 ^ k.
Proof. intros. rewrite <- Z.land_ones by assumption. f_equal. rewrite Z.ones_equiv. lia. Qed.
Lemma add_some a b r : add_or_panic a b = Some r <-> r = a + b /\ a + b < 2 ^ 32.
Proof.
  unfold add_or_panic. destruct (Z.ltb_spec (a + b) 4294967296); split; intros E.
  - split; [congruence|lia].
  - destruct E as [-> _]. reflexivity.
  - discriminate.
  - lia.
Qed.

(** One request: it succeeds exactly when the first sufficiently aligned block
    ends 256 bytes below the stack pointer, and then returns that block. *)
Theorem C42_request : forall chk end_ pos r, layout r -> 0 <= r_sp r < 2 ^ 32 -> 0 < end_ < 2 ^ 32 -> 0 <= pos < 2 ^ 32 ->
  let free := if pos =? 0 then end_ else pos in
  exists y, next_multiple (r_align r) free y /\
    sys_alloc_aligned chk end_ pos (r_size r) (r_align r) (r_sp r) =
      if y + r_size r + 256 <=? r_sp r then Some (y + r_size r, y) else None.
Proof.
  intros chk end_ pos r (HS & k & Hk & HA) HSP HE HP free. rewrite HA. set (a := 2 ^ k).
  assert (Ha : 0 < a <= 2 ^ 31). { split; [apply Z.pow_pos_nonneg; lia|apply Z.pow_le_mono_r; lia]. }
  assert (HF : 0 < free < 2 ^ 32). { unfold free. destruct (Z.eqb_spec pos 0); lia. }
  unfold sys_alloc_aligned. fold free. unfold pred_usize. destruct (Z.eqb_spec a 0); [lia|]. cbv zeta beta iota.
  unfold a. rewrite land_low by lia. fold a. pose proof (Z.mod_pos_bound free a ltac:(lia)) as B.
  pose proof (Z.div_mod free a ltac:(lia)) as D.
  set (y := if free mod a =? 0 then free else free + (a - free mod a)).
  assert (NY : next_multiple a free y).
  { unfold next_multiple, y. destruct (Z.eqb_spec (free mod a) 0) as [E|E].
    - split; [exists (free / a); lia|lia].
    - split; [exists (free / a + 1); lia|lia]. }
  exists y. split; [exact NY|].
  assert (E : (if free mod a =? 0 then Some free else add_or_panic free (u32 (a - free mod a))) =
              if y <? 2 ^ 32 then Some y else None).
  { unfold y. destruct (Z.eqb_spec (free mod a) 0).
    - destruct (Z.ltb_spec free (2 ^ 32)); [reflexivity|lia].
    - unfold add_or_panic, u32. rewrite Z.mod_small by lia. reflexivity. }
  rewrite E. destruct NY as [_ NY].
  destruct (Z.ltb_spec y (2 ^ 32)) as [HY|HY]; [|destruct (Z.leb_spec (y + r_size r + 256) (r_sp r)); [lia|reflexivity]].
  destruct (add_or_panic y (r_size r)) as [h|] eqn:A1.
  - apply add_some in A1 as [-> A1]. destruct (add_or_panic (y + r_size r) MEMORY_GAP) as [g|] eqn:A2.
    + apply add_some in A2 as [-> A2]. unfold MEMORY_GAP.
      destruct (Z.ltb_spec (r_sp r) (y + r_size r + 256)), (Z.leb_spec (y + r_size r + 256) (r_sp r)); try lia; reflexivity.
    + destruct (Z.leb_spec (y + r_size r + 256) (r_sp r)); [|reflexivity].
      assert (add_or_panic (y + r_size r) MEMORY_GAP = Some (y + r_size r + MEMORY_GAP)) by (apply add_some; unfold MEMORY_GAP; lia). congruence.
  - destruct (Z.leb_spec (y + r_size r + 256) (r_sp r)); [|reflexivity].
    assert (add_or_panic y (r_size r) = Some (y + r_size r)) by (apply add_some; lia). congruence.
Qed.
Print Assumptions C42_request.
Example C42_request_example : sys_alloc_aligned true 0x40123 0x40201 24 8 0x41000 = Some (0x40220, 0x40208).
Proof. reflexivity. Qed.

(** Histories.  [k]-th request and result of a run *)
Definition served (chk : bool) (end_ : Z) (rs : list request) (k : nat) (r : request) (p : Z) : Prop :=
  nth_error rs k = Some r /\ nth_error (snd (alloc_run chk end_ 0 rs)) k = Some (Some p).
Definition proper (r : request) : Prop := layout r /\ 0 <= r_sp r < 2 ^ 32.

Lemma step_ok chk end_ pos r pos' p : proper r -> 0 < end_ < 2 ^ 32 -> pos = 0 \/ end_ <= pos < 2 ^ 32 ->
  alloc_step chk end_ pos r = (pos', p) ->
  (pos' = 0 \/ end_ <= pos' < 2 ^ 32) /\
  match p with
  | None => pos' = pos
  | Some q => (r_align r | q) /\ end_ <= q /\ pos <= q /\ q + r_size r = pos' /\ q + r_size r + 256 <= r_sp r
  end.
Proof.
  intros [HL HS] HE HP H. unfold alloc_step in H.
  destruct (C42_request chk end_ pos r HL HS HE ltac:(lia)) as (y & [Y1 Y2] & E). rewrite E in H.
  assert (HF : end_ <= (if pos =? 0 then end_ else pos) /\ pos <= (if pos =? 0 then end_ else pos)) by (destruct (Z.eqb_spec pos 0); lia).
  destruct HL as [HZ _]. destruct (Z.leb_spec (y + r_size r + 256) (r_sp r)); injection H as <- <-; repeat split; auto; lia.
Qed.
Lemma run_ok chk end_ : 0 < end_ < 2 ^ 32 -> forall rs pos, Forall proper rs -> pos = 0 \/ end_ <= pos < 2 ^ 32 ->
  forall k r p, nth_error rs k = Some r -> nth_error (snd (alloc_run chk end_ pos rs)) k = Some (Some p) ->
  (r_align r | p) /\ end_ <= p /\ pos <= p /\ p + r_size r + 256 <= r_sp r /\
  forall j r' p', (k < j)%nat -> nth_error rs j = Some r' -> nth_error (snd (alloc_run chk end_ pos rs)) j = Some (Some p') ->
    p + r_size r <= p'.
Proof.
  intros HE. induction rs as [|r0 rs IH]; intros pos HF HP k r p N1 N2; [destruct k; discriminate|].
  inversion_clear HF as [|? ? P0 HF']. cbn [alloc_run] in *.
  destruct (alloc_step chk end_ pos r0) as [pos1 p0] eqn:S. destruct (step_ok _ _ _ _ _ _ P0 HE HP S) as (S1 & S2).
  destruct (alloc_run chk end_ pos1 rs) as [pos2 ps] eqn:R. cbn [snd] in *.
  assert (IH' := IH pos1 HF' S1). rewrite R in IH'. cbn [snd] in IH'.
  destruct P0 as ((Z0 & _) & _).
  destruct k as [|k]; cbn [nth_error] in N1, N2.
  - injection N1 as ->. injection N2 as ->. destruct S2 as (A1 & A2 & A3 & A4 & A5).
    split; [exact A1|]. split; [exact A2|]. split; [exact A3|]. split; [exact A5|].
    intros [|j] r' p' Hj M1 M2; [lia|]. cbn [nth_error] in M1, M2. destruct (IH' j r' p' M1 M2) as (_ & _ & B & _). lia.
  - destruct (IH' k r p N1 N2) as (B1 & B2 & B3 & B4 & B5). split; [exact B1|]. split; [exact B2|]. split.
    + destruct p0 as [q|]; [destruct S2 as (_ & _ & A3 & A4 & _); lia|lia].
    + split; [exact B4|]. intros [|j] r' p' Hj M1 M2; [lia|]. apply (B5 j r' p'); auto. lia.
Qed.

(** Over any sequence of requests, served or refused, every block served is
    aligned, lies at or above the end of static data, ends at least 256 bytes
    below the stack pointer, and lies below every block served later. *)
Theorem C42_history : forall chk end_ rs, 0 < end_ < 2 ^ 32 -> Forall proper rs ->
  (forall k r p, served chk end_ rs k r p ->
     (r_align r | p) /\ end_ <= p /\ p + r_size r + 256 <= r_sp r) /\
  (forall k j r r' p p', (k < j)%nat -> served chk end_ rs k r p -> served chk end_ rs j r' p' -> p + r_size r <= p').
Proof.
  intros chk end_ rs HE HF. split.
  - intros k r p [N1 N2]. destruct (run_ok chk end_ HE rs 0 HF (or_introl eq_refl) k r p N1 N2) as (A & B & _ & C & _). auto.
  - intros k j r r' p p' Hkj [N1 N2] [M1 M2].
    destruct (run_ok chk end_ HE rs 0 HF (or_introl eq_refl) k r p N1 N2) as (_ & _ & _ & _ & A). exact (A j r' p' Hkj M1 M2).
Qed.
Print Assumptions C42_history.

(** A refused request leaves the allocator as it was: the same requests with
    it left out get the same blocks. *)
Theorem C42_refused : forall chk end_ pos r rs, snd (alloc_step chk end_ pos r) = None ->
  alloc_run chk end_ pos (r :: rs) = (fst (alloc_run chk end_ pos rs), None :: snd (alloc_run chk end_ pos rs)).
Proof.
  intros chk end_ pos r rs H. cbn [alloc_run]. unfold alloc_step in *.
  destruct (sys_alloc_aligned chk end_ pos (r_size r) (r_align r) (r_sp r)) as [[pos' p]|]; [discriminate|].
  destruct (alloc_run chk end_ pos rs). reflexivity.
Qed.
Print Assumptions C42_refused.

(** three served requests around a refused one *)
Example C42_example : alloc_run true 0x40123 0
  [Request 10 1 0x41000; Request 64 16 0x41000; Request 0xe00 4 0x41000; Request 3 4 0x41000]
  = (0x40173, [Some 0x40123; Some 0x40130; None; Some 0x40170]).
Proof. reflexivity. Qed.
Example C42_example_proper : Forall proper
  [Request 10 1 0x41000; Request 64 16 0x41000; Request 0xe00 4 0x41000; Request 3 4 0x41000].
Proof.
  repeat constructor; cbn; try lia; [exists 0|exists 4|exists 2|exists 2]; lia.
Qed.

(** Outside [layout]: a request with alignment 0 always panics, with overflow
    checks in [align - 1], without them because the next multiple would be 2^32. *)
Theorem C42_zero_alignment : forall chk end_ pos bytes sp, 0 < end_ < 2 ^ 32 -> 0 <= pos < 2 ^ 32 ->
  sys_alloc_aligned chk end_ pos bytes 0 sp = None.
Proof.
  intros chk end_ pos bytes sp HE HP. unfold sys_alloc_aligned, pred_usize. cbn [Z.eqb]. destruct chk; [reflexivity|].
  set (free := if pos =? 0 then end_ else pos).
  assert (HF : 0 < free < 2 ^ 32). { unfold free. destruct (Z.eqb_spec pos 0); lia. }
  cbv zeta beta iota. change 4294967295 with (2 ^ 32 - 1). rewrite land_low by lia. rewrite Z.mod_small by lia.
  destruct (Z.eqb_spec free 0); [lia|]. unfold add_or_panic, u32.
  replace ((0 - free) mod 4294967296) with (4294967296 - free) by (apply Z.mod_unique with (q := -1); lia).
  destruct (Z.ltb_spec (free + (4294967296 - free)) 4294967296); [lia|reflexivity].
Qed.
Print Assumptions C42_zero_alignment.
Example C42_zero_case : sys_alloc_aligned false 262200 0 8 0 266240 = None /\ sys_alloc_aligned false 262200 0 8 4 266240 = Some (262208, 262200).
Proof. split; vm_compute; reflexivity. Qed.
