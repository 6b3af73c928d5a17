(** * The linker script

    compiler/linker-script/default.x: where the sections of a guest go.  A guest
    is the contents of its input sections; the result is the image that
    [Loader.from_elf] reads.  Simplified: the sections are combined to segments
    as ld.lld does (consecutive sections with equal permissions share a
    segment; INPUT is a constant, so .inpdata is read-only; empty sections give
    no segment), segments follow each other in the file without gaps. *)
Require Import ZArith List Bool.
Require Import Verif.Word Verif.RunSpec Verif.Loader.
Import ListNotations.
Open Scope Z_scope.

Record objects := Objects {
  o_text : list Z;    (* words of .init, .init.rust, .text *)
  o_inp : list Z;     (* bytes of .inpdata *)
  o_out : list Z;     (* bytes of .outdata *)
  o_ro : list Z;      (* bytes of .srodata, .rodata *)
  o_data : list Z;    (* bytes of .sdata, .data *)
  o_bss : Z }.        (* size of .sbss, .bss *)

Definition len (l : list Z) : Z := Z.of_nat (length l).
(** [ALIGN(4)] *)
Definition align4 (x : Z) : Z := (x + 3) / 4 * 4.
(** default.x:6-7 *)
Definition FLASH_LEN : Z := 256 * 1024.
Definition RAM_ORIGIN : Z := 0x40000.
Definition RAM_LEN : Z := 4 * 1024.
(** default.x:13 *)
Definition stack_start : Z := RAM_ORIGIN + RAM_LEN.
(** default.x:25-69: each section starts at the next multiple of four; .rodata is
    padded to a multiple of four, too *)
Definition inp_at (o : objects) : Z := align4 RAM_ORIGIN.
Definition out_at (o : objects) : Z := align4 (inp_at o + len (o_inp o)).
Definition ro_at (o : objects) : Z := align4 (out_at o + len (o_out o)).
Definition ro_end (o : objects) : Z := align4 (ro_at o + len (o_ro o)).
Definition data_at (o : objects) : Z := align4 (ro_end o).
Definition bss_at (o : objects) : Z := align4 (data_at o + len (o_data o)).
(** default.x:68 [_end], the start of the heap *)
Definition end_at (o : objects) : Z := bss_at o + o_bss o.
(** default.x:60 *)
Definition global_pointer (o : objects) : Z := data_at o + 0x800.

(** a segment: permissions, address, bytes in the file, size in memory *)
Record seg := Seg { g_flags : Z; g_addr : Z; g_bytes : list Z; g_mem : Z }.
(** zeros from address [a] to address [b] *)
Definition gap (a b : Z) : list Z := repeat 0 (Z.to_nat (b - a)).
Definition segments (o : objects) : list seg :=
  let rx := Seg 5 0 (image (o_text o)) (len (image (o_text o))) in
  let inp := Seg 4 (inp_at o) (o_inp o) (len (o_inp o)) in
  let ro_bytes := o_ro o ++ gap (ro_at o + len (o_ro o)) (ro_end o) in
  (* .bss occupies memory only; without it the segment ends with .data *)
  let mem first last := (if o_bss o =? 0 then last else end_at o) - first in
  rx :: filter (fun g => negb (g_mem g =? 0))
    (inp ::
     match o_ro o with
     | [] => let bytes := match o_data o with
                          | [] => o_out o
                          | _ => o_out o ++ gap (out_at o + len (o_out o)) (data_at o) ++ o_data o
                          end in
             [Seg 6 (out_at o) bytes (mem (out_at o) (out_at o + len bytes))]
     | _ => [Seg 6 (out_at o) (o_out o) (len (o_out o));
             Seg 4 (ro_at o) ro_bytes (len ro_bytes);
             (let first := match o_data o with [] => bss_at o | _ => data_at o end in
              Seg 6 first (o_data o) (mem first (first + len (o_data o))))]
     end).

(** segments one after the other in the file, from position [pos] *)
Fixpoint headers (pos : Z) (l : list seg) : list phdr :=
  match l with
  | [] => []
  | g :: t => Phdr PT_LOAD (g_flags g) pos (g_addr g) (len (g_bytes g)) (g_mem g) :: headers (pos + len (g_bytes g)) t
  end.
(** the linker refuses a program that does not fit its memory regions *)
Definition link (o : objects) : option elf :=
  assert ((len (image (o_text o)) <=? FLASH_LEN) && (end_at o <=? RAM_ORIGIN + RAM_LEN));
  Some {| e_bytes := flat_map g_bytes (segments o); e_phdrs := headers 0 (segments o);
          e_inpdata := Some {| T.start_addr := inp_at o; T.io_size := len (o_inp o) |};
          e_outdata := Some {| T.start_addr := out_at o; T.io_size := len (o_out o) |} |}.
