(** * Schedules that respect a dependency graph *)
Require Import ZArith List Bool.
Require Import Verif.Flow Verif.CycleTime.
Import ListNotations.
Open Scope Z_scope.

Definition block_eq_dec (a b : block) : {a = b} + {a <> b}.
Proof. decide equality. Defined.

Section Graph.
Variable edges : list (node * node).
(** a value made in block [b] is used in block [c] *)
Definition needs (b c : block) : Prop :=
  b <> c /\ exists m n, In (m, n) edges /\ block_of m = Some b /\ block_of n = Some c.
(** ... used in block [c] of the next cycle *)
Definition carried (x y : node) : Prop :=
  (x, y) = (PC_AFTER, PC) \/ (x, y) = (RAM_AFTER, RAM) \/ (x, y) = (REGISTERS_AFTER, REGISTERS).
Definition needs_next (b c : block) : Prop :=
  exists m x y n, In (m, x) edges /\ carried x y /\ In (y, n) edges /\ block_of m = Some b /\ block_of n = Some c.

(** [st b]: when block [b] starts; as many as possible may run at once *)
Definition valid (d : block -> Z) (st : block -> Z) : Prop :=
  (forall b, 0 <= st b) /\ (forall b c, needs b c -> st b + d b <= st c).
Definition done_by (d st : block -> Z) (t : Z) : Prop := forall b, st b + d b <= t.
(** a path and its total time *)
Inductive path : list block -> Prop :=
| P_one b : path [b]
| P_cons b c l : needs b c -> path (c :: l) -> path (b :: c :: l).
Definition total (d : block -> Z) (l : list block) : Z := fold_right (fun b s => d b + s) 0 l.

(** cycle after cycle, overlapping as far as the data allows *)
Definition valid_run (d : block -> Z) (st : nat -> block -> Z) : Prop :=
  (forall k, valid d (st k)) /\ (forall k b c, needs_next b c -> st k b + d b <= st (S k) c).
End Graph.
(** when block [b] starts if the blocks of [l] run one after the other *)
Fixpoint before (d : block -> Z) (l : list block) (b : block) : Z :=
  match l with
  | [] => 0
  | c :: l' => match block_eq_dec c b with left _ => 0 | right _ => d c + before d l' b end
  end.
