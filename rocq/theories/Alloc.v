(** * The guest's bump allocator

    Model of runtime/src/alloc.rs and of [Heap] in runtime/src/lib.rs.  [usize]
    is 32 bits wide.  A panic is [None]; the static HEAP_POS is written only
    after the last check. *)
Require Import ZArith List Bool.
Require Import Verif.Word.
Import ListNotations.
Open Scope Z_scope.

(** alloc.rs:17 *)
Definition MEMORY_GAP : Z := 256.
(** [usize::checked_add(..).expect(..)] *)
Definition add_or_panic (a b : Z) : option Z := if a + b <? 4294967296 then Some (a + b) else None.
(** [align - 1]; only [align = 0] underflows *)
Definition pred_usize (chk : bool) (a : Z) : option Z :=
  if a =? 0 then if chk then None else Some 4294967295 else Some (a - 1).

(** alloc.rs:21-72.  [end_]: the address of the linker symbol _end; [pos]: the
    static HEAP_POS; [sp]: the stack pointer.  Returns the new HEAP_POS and the block. *)
Definition sys_alloc_aligned (chk : bool) (end_ pos bytes align sp : Z) : option (Z * Z) :=
  let heap_pos := if pos =? 0 then end_ else pos in
  do mask <- pred_usize chk align;
  let offset := Z.land heap_pos mask in
  do ptr <- (if offset =? 0 then Some heap_pos else add_or_panic heap_pos (u32 (align - offset)));
  do heap_pos' <- add_or_panic ptr bytes;
  do gap_check <- add_or_panic heap_pos' MEMORY_GAP;
  if sp <? gap_check then None else Some (heap_pos', ptr).

(** a call of [Heap::alloc] (lib.rs:81-84): size and alignment of the layout, and
    the stack pointer at that moment.  [Heap::dealloc] does nothing (lib.rs:85). *)
Record request := Request { r_size : Z; r_align : Z; r_sp : Z }.
Definition alloc_step (chk : bool) (end_ pos : Z) (r : request) : Z * option Z :=
  match sys_alloc_aligned chk end_ pos (r_size r) (r_align r) (r_sp r) with
  | Some (pos', ptr) => (pos', Some ptr)
  | None => (pos, None)
  end.
(** the results of a sequence of calls *)
Fixpoint alloc_run (chk : bool) (end_ pos : Z) (rs : list request) : Z * list (option Z) :=
  match rs with
  | [] => (pos, [])
  | r :: t =>
      let (pos1, p) := alloc_step chk end_ pos r in
      let (pos2, ps) := alloc_run chk end_ pos1 t in
      (pos2, p :: ps)
  end.
