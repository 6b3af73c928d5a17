(** * C69: the scratch space the memory operations ask for *)
Require Import ZArith List Bool Lia.
Require Import Verif.Word Verif.Scratch.
Import ListNotations.
Open Scope Z_scope.

(** Sizes are not negative. *)
Definition sizes (c : costs) : Prop :=
  0 <= k_glwe c /\ 0 <= k_word c /\ 0 <= k_select c /\ 0 <= k_rotation c /\ 0 <= k_retrieval c /\
  0 <= k_trace c /\ 0 <= k_normalize c /\ 0 <= k_rotate c /\ 0 <= k_bit c /\ 0 <= k_pack c.

Ltac space :=
  unfold sizes, zero_space, read_stateless_space, read_statefull_space, read_statefull_rev_space, write_space,
    retrieve_stateless, retrieve_statefull, retrieve_statefull_rev, write_plane, stateless_bytes, statefull_bytes,
    write_bytes, rev_bytes, chunked, take, need, large;
  cbv zeta.
Ltac cases :=
  repeat match goal with |- context [?x <=? ?y] => destruct (Z.leb_spec x y) end;
  repeat match goal with |- context [?x =? ?y] => destruct (Z.eqb_spec x y) end; split; intros; try congruence; try lia.

(** The bytes of scratch space that the operations ask for are, per thread,
    the larger of the two operations of a plane; the answer is the exact
    amount that is enough for the whole operation. *)
Theorem C69_stateless : forall c threads avail, sizes c -> 1 <= threads ->
  read_stateless_space c threads avail = Some tt <->
  32 * k_word c + Z.max (threads * Z.max (k_select c) (k_rotation c)) (k_pack c) <= avail.
Proof.
  space. intros c t a S T. set (m := Z.max (k_select c) (k_rotation c)).
  assert (M : k_select c <= m /\ k_rotation c <= m) by (unfold m; lia). set (tm := t * m). clearbody tm m. cases.
Qed.
Print Assumptions C69_stateless.

Theorem C69_zero : forall c threads avail, sizes c -> 1 <= threads ->
  zero_space c threads avail = Some tt <->
  threads * (Z.max (k_rotate c) (k_trace c) + k_glwe c) <= avail.
Proof.
  space. intros c t a S T. set (m := Z.max (k_rotate c) (k_trace c)).
  assert (M : k_rotate c <= m /\ k_trace c <= m) by (unfold m; lia). set (tm := t * (m + k_glwe c)). clearbody tm m. cases.
Qed.
Print Assumptions C69_zero.

(** The statefull read of a memory larger than a ciphertext. *)
Theorem C69_statefull : forall c log bit_size threads avail, sizes c -> 1 <= threads ->
  read_statefull_space c log bit_size threads avail = Some tt <->
  32 * k_word c + Z.max (threads * (if log <? bit_size then Z.max (k_retrieval c) (k_rotation c) else k_retrieval c)) (k_pack c) <= avail /\
  (log < bit_size \/ k_rotation c <= k_retrieval c).
Proof.
  space. intros c l b t a S T. destruct (Z.ltb_spec l b) as [L|L].
  - set (m := Z.max (k_retrieval c) (k_rotation c)).
    assert (M : k_retrieval c <= m /\ k_rotation c <= m) by (unfold m; lia). set (tm := t * m). clearbody tm m. cases.
  - replace (Z.max (k_retrieval c) 0) with (k_retrieval c) by lia. set (tm := t * _). clearbody tm. cases.
Qed.
Print Assumptions C69_statefull.

(** What one plane of a write needs. *)
Definition plane_bytes (c : costs) (more : Z) : Z :=
  Z.max (Z.max (k_trace c + Z.max (k_glwe c) (k_normalize c)) (k_retrieval c)) more.

(** The writes. *)
Theorem C69_rev : forall c log bit_size threads avail, sizes c -> 1 <= threads ->
  let asked := plane_bytes c (if log <? bit_size then k_rotation c else 0) in
  read_statefull_rev_space c log bit_size threads avail = Some tt <->
  threads * (asked + k_word c) <= avail /\ k_bit c <= asked /\ k_rotation c <= asked.
Proof.
  space. intros c l b t a S T. unfold plane_bytes. set (m := Z.max (Z.max _ _) _).
  assert (M : k_trace c + k_glwe c <= m /\ k_normalize c <= m /\ k_retrieval c <= m) by (unfold m; lia).
  set (tm := t * _). clearbody tm m. destruct (Z.ltb_spec l b); cases.
Qed.
Print Assumptions C69_rev.

Theorem C69_write : forall c log bit_size threads avail, sizes c -> 1 <= threads ->
  let asked := plane_bytes c (if log <? bit_size then k_rotation c else 0) in
  write_space c log bit_size threads avail = Some tt <->
  threads * (asked + k_word c) <= avail /\ k_bit c <= asked /\ k_rotation c <= asked.
Proof.
  space. intros c l b t a S T. unfold plane_bytes. set (m := Z.max (Z.max _ _) _).
  assert (M : k_trace c + k_glwe c <= m /\ k_normalize c <= m /\ k_retrieval c <= m) by (unfold m; lia).
  set (tm := t * _). clearbody tm m. destruct (Z.ltb_spec l b); cases.
Qed.
Print Assumptions C69_write.

(** What one plane needs by itself, counted without the formulas of the code: the trace works
    beside the copy of a ciphertext. *)
Theorem C69_planes : forall c log bit_size avail, sizes c ->
  (retrieve_stateless c avail = Some tt <-> k_select c <= avail /\ k_rotation c <= avail) /\
  (retrieve_statefull c log bit_size avail = Some tt <-> (log < bit_size -> k_retrieval c <= avail) /\ k_rotation c <= avail) /\
  (retrieve_statefull_rev c log bit_size avail = Some tt <->
    k_glwe c + k_trace c <= avail /\ k_normalize c <= avail /\ k_rotation c <= avail /\ (log < bit_size -> k_retrieval c <= avail)) /\
  (write_plane c log bit_size avail = Some tt <->
    k_glwe c + k_trace c <= avail /\ k_normalize c <= avail /\ k_rotation c <= avail /\ (log < bit_size -> k_retrieval c <= avail)).
Proof.
  space. intros c l b a S. destruct (Z.ltb_spec l b); (split; [|split; [|split]]); cases.
Qed.
Print Assumptions C69_planes.

(** The claim of the assertions: whoever passes them has enough.  It holds
    for memories larger than one ciphertext, if packing and taking out a bit
    need no more than the rest. *)
Theorem C69_large : forall c log bit_size threads avail, sizes c -> 1 <= threads -> log < bit_size ->
  let plane := plane_bytes c (k_rotation c) in
  k_pack c <= k_retrieval c -> k_bit c <= plane ->
  (32 * k_word c + threads * Z.max (k_retrieval c) (k_rotation c) <= avail ->
   read_statefull_space c log bit_size threads avail = Some tt) /\
  (threads * (plane + k_word c) <= avail ->
   read_statefull_rev_space c log bit_size threads avail = Some tt /\ write_space c log bit_size threads avail = Some tt).
Proof.
  intros c l b t a S T L plane P B. assert (LT : (l <? b) = true) by (apply Z.ltb_lt; exact L).
  assert (R : k_rotation c <= plane) by (unfold plane, plane_bytes; lia). split; intros H.
  - apply C69_statefull; [exact S|exact T|]. rewrite LT. split; [|left; exact L].
    set (m := Z.max (k_retrieval c) (k_rotation c)) in *. assert (k_pack c <= t * m) by (unfold sizes in S; assert (k_retrieval c <= m) by (unfold m; lia); nia). lia.
  - split; [apply C69_rev|apply C69_write]; try exact S; try exact T; rewrite LT; auto.
Qed.
Print Assumptions C69_large.

(** It is false for the others (the registers, and a RAM of at most as many
    words as a ciphertext has coefficients): the rotation, which such a
    memory uses, is not counted, and the retrieval, which it does not use,
    is.  If a rotation needs more than what is counted, no amount of
    scratch space is enough: every thread gets exactly what was counted. *)
Theorem C69_small_refuted : forall log bit_size threads avail, bit_size <= log -> 1 <= threads ->
  exists c, sizes c /\
    (forall a, 32 * k_word c + threads * Z.max (k_retrieval c) (k_rotation c) <= a -> read_stateless_space c threads a = Some tt) /\
    read_statefull_space c log bit_size threads avail = None /\
    read_statefull_rev_space c log bit_size threads avail = None /\
    write_space c log bit_size threads avail = None.
Proof.
  intros l b t a L T.
  set (c := {| k_glwe := 1; k_word := 1; k_select := 1; k_rotation := 3; k_retrieval := 1; k_trace := 1; k_normalize := 1; k_rotate := 1; k_bit := 1; k_pack := 1 |}).
  assert (S : sizes c) by (unfold sizes; cbn; lia). exists c.
  assert (N : forall o : option unit, o <> Some tt -> o = None) by (intros [[]|]; congruence).
  assert (LT : (l <? b) = false) by (apply Z.ltb_ge; exact L).
  split; [exact S|]. split.
  { intros a' H. apply C69_stateless; [exact S|exact T|]. cbn [c k_word k_select k_rotation k_retrieval k_pack] in H |- *. lia. }
  repeat split; apply N; intros X.
  - apply C69_statefull in X; auto. cbn in X. lia.
  - apply C69_rev in X; auto. rewrite LT in X. unfold plane_bytes in X. cbn in X. lia.
  - apply C69_write in X; auto. rewrite LT in X. unfold plane_bytes in X. cbn in X. lia.
Qed.
Print Assumptions C69_small_refuted.

(** Four threads, a RAM of 2^12 words in ciphertexts of 2^10 coefficients:
    what is asked for is enough, one byte less is not; the same memory with
    2^10 words fails with any amount. *)
Definition ex_costs : costs :=
  {| k_glwe := 100; k_word := 90; k_select := 300; k_rotation := 500; k_retrieval := 400; k_trace := 200; k_normalize := 50; k_rotate := 10; k_bit := 250; k_pack := 350 |}.
Example C69_case :
  sizes ex_costs /\ k_pack ex_costs <= k_retrieval ex_costs /\ k_bit ex_costs <= plane_bytes ex_costs (k_rotation ex_costs) /\
  write_space ex_costs 10 12 4 2360 = Some tt /\ write_space ex_costs 10 12 4 2359 = None /\
  read_statefull_space ex_costs 10 12 4 4880 = Some tt /\ read_statefull_space ex_costs 10 12 4 4879 = None /\
  write_space ex_costs 10 10 4 (2 ^ 40) = None /\ read_statefull_space ex_costs 10 10 4 (2 ^ 40) = None.
Proof. unfold sizes, plane_bytes. cbn. repeat split; discriminate. Qed.
