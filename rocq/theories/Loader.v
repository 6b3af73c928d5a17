(** * From an ELF image to the two VMs

    Model of compiler/src/interpreter.rs.  Parsing of the ELF container is done
    by the [elf] crate and is not modelled: an image is its bytes, its program
    headers and the two sections looked up by name.  [chk]: overflow checks
    ([usize] and [u64] are 64 bits wide); [dbg]: debug assertions. *)
Require Import ZArith List Bool.
Require Import Verif.Word Verif.Codec Verif.Bdd Verif.Glwe Verif.Par Verif.EncMem Verif.Prepare Verif.EncEval Verif.EncVM
  Verif.EncSpec.
Require Verif.TestVM.
Module T := Verif.TestVM.
Import ListNotations.
Open Scope Z_scope.

(** the fields of [elf::segment::ProgramHeader] that are read *)
Record phdr := Phdr { p_type : Z; p_flags : Z; p_offset : Z; p_vaddr : Z; p_filesz : Z; p_memsz : Z }.
Record elf := Elf {
  e_bytes : list Z; e_phdrs : list phdr;
  e_inpdata : option T.io_info; e_outdata : option T.io_info }. (* [sh_addr], [sh_size] *)
Definition PT_LOAD : Z := 1.
Definition PF_R : Z := 4. Definition PF_W : Z := 2. Definition PF_X : Z := 1.

(** interpreter.rs:40 *)
Definition RAM_SIZE : Z := 4096.
(** interpreter.rs:53-57 *)
Record boot_memory := BootMemory { b_offset : Z; b_size : Z; b_data : list Z }.
(** interpreter.rs:170-176 *)
Record phantom := Phantom { boot_rom : boot_memory; boot_ram : boot_memory; out_info : T.io_info; inp_info : T.io_info }.

(** [a + b] on 64-bit unsigned integers *)
Definition uadd (chk : bool) (a b : Z) : option Z :=
  if a + b <? 18446744073709551616 then Some (a + b) else if chk then None else Some (u64 (a + b)).
(** [&xs[lo..hi]] *)
Definition slice (xs : list Z) (lo hi : Z) : option (list Z) :=
  assert ((lo <=? hi) && (hi <=? Z.of_nat (length xs)));
  Some (firstn (Z.to_nat (hi - lo)) (skipn (Z.to_nat lo) xs)).
(** [xs[lo..hi].copy_from_slice(src)] *)
Definition copy_into (xs : list Z) (lo hi : Z) (src : list Z) : option (list Z) :=
  assert ((lo <=? hi) && (hi <=? Z.of_nat (length xs)) && (Z.of_nat (length src) =? hi - lo));
  Some (firstn (Z.to_nat lo) xs ++ src ++ skipn (Z.to_nat hi) xs).
(** the range [lo .. lo + len] counted from [off], as computed in
    interpreter.rs:228 and 323-324 *)
Definition range_from (chk : bool) (start len off : Z) : option (Z * Z) :=
  do lo <- T.usub chk start off;
  do e <- uadd chk start len;
  do hi <- T.usub chk e off;
  Some (lo, hi).

(** interpreter.rs:220-233: one segment *)
Definition copy_segment (chk : bool) (bytes : list Z) (ram_offset : Z) (acc : option (list Z)) (h : phdr) : option (list Z) :=
  do data <- acc;
  if (0 <? p_memsz h) && (p_filesz h =? p_memsz h) then
    do (lo, hi) <- range_from chk (p_vaddr h) (p_memsz h) ram_offset;
    do e <- uadd chk (p_memsz h) (p_offset h);
    do src <- slice bytes (p_offset h) e;
    copy_into data lo hi src
  else Some data.

(** interpreter.rs:182-187, 211-214 *)
Definition loadable (e : elf) : list phdr := filter (fun h => p_type h =? PT_LOAD) (e_phdrs e).
Definition data_hdrs (e : elf) : list phdr :=
  filter (fun h => (p_flags h =? PF_R) || (p_flags h =? PF_R + PF_W)) (loadable e).

(** interpreter.rs:179-283 *)
Definition from_elf (chk : bool) (e : elf) : option phantom :=
  do txt <- find (fun h => p_flags h =? PF_R + PF_X) (loadable e);
  assert (p_filesz txt =? p_memsz txt);
  assert (p_vaddr txt =? 0);
  do fin <- uadd chk (p_offset txt) (p_memsz txt);
  do code <- slice (e_bytes e) (p_offset txt) fin;
  let hdrs := data_hdrs e in
  let off := match hdrs with [] => 0 | h :: _ => p_vaddr h end in
  do data <- fold_left (copy_segment chk (e_bytes e) off) hdrs (Some (repeat 0 (Z.to_nat RAM_SIZE)));
  do inp <- e_inpdata e;
  do out <- e_outdata e;
  Some {| boot_rom := BootMemory (p_vaddr txt) (p_memsz txt) code;
          boot_ram := BootMemory off RAM_SIZE data; out_info := out; inp_info := inp |}.

(** interpreter.rs:308-315 and 327-336: [chunks_exact(4)] and the shift-and-add
    of the four bytes; a rest of fewer than four bytes is dropped *)
Definition le_word (bs : list Z) : Z :=
  fold_left (fun acc ib => acc + shl32 (snd ib) (fst ib * 8)) (combine [0; 1; 2; 3] bs) 0.
Fixpoint chunks4 (bs : list Z) : list Z :=
  match bs with
  | a :: b :: c :: d :: r => le_word [a; b; c; d] :: chunks4 r
  | _ => []
  end.

(** interpreter.rs:109-118; the keys are those of the ideal scheme *)
Record enc_vm := EncVm {
  ev_vm : evm poly bool (list Z); ev_out : T.io_info; ev_offset : Z; ev_max : nat; ev_debug : bool }.

(** interpreter.rs:301-410.  [debug] is the environment variable PHANTOM_DEBUG;
    the number of threads goes into the environments of the cycles. *)
Definition encrypted_vm (log : nat) (dbg chk debug : bool) (ph : phantom) (tape : list Z) (max_cycles : nat)
    : option enc_vm :=
  assert (Z.of_nat (length (b_data (boot_rom ph))) mod 4 =? 0);
  do p <- parser_add_all dbg parser_new (chunks4 (b_data (boot_rom ph)));
  let off := b_offset (boot_ram ph) in
  assert (Z.of_nat (length tape) =? T.io_size (inp_info ph));
  do (lo, hi) <- range_from chk (T.start_addr (inp_info ph)) (T.io_size (inp_info ph)) off;
  do ram <- copy_into (b_data (boot_ram ph)) lo hi tape;
  do v <- load log dbg debug (Z.to_nat (Z.shiftr (b_size (boot_rom ph)) 2))
                 (Z.to_nat (Z.shiftr (b_size (boot_ram ph)) 2)) p (chunks4 ram);
  Some {| ev_vm := v; ev_out := out_info ph; ev_offset := off; ev_max := max_cycles; ev_debug := debug |}.

(** interpreter.rs:121-138: [max_cycles] cycles, each in its own environment;
    the secret key is used only when debugging *)
Definition enc_execute (log : nat) (chk : bool) (es : list env) (s : enc_vm) : option enc_vm :=
  assert (Nat.eqb (length es) (ev_max s));
  do v <- ecycles (Ideal log) (if ev_debug s then Some secret_key else None) chk es (ev_vm s);
  Some {| ev_vm := v; ev_out := ev_out s; ev_offset := ev_offset s; ev_max := ev_max s; ev_debug := ev_debug s |}.

(** interpreter.rs:151-157 *)
Definition word_bytes (w : Z) : list Z :=
  [Z.land w 255; Z.land (Z.shiftr w 8) 255; Z.land (Z.shiftr w 16) 255; Z.land (Z.shiftr w 24) 255].
(** interpreter.rs:140-166 *)
Definition enc_output (chk : bool) (s : enc_vm) : option (list Z) :=
  do ws <- ram_decrypt (ev_vm s) (repeat 0 (Z.to_nat (Z.shiftr RAM_SIZE 2)));
  let bytes := flat_map word_bytes ws in
  T.mapM (fun i =>
      do a <- uadd chk (T.start_addr (ev_out s)) (Z.of_nat i);
      do o <- T.usub chk a (ev_offset s);
      nth_error bytes (Z.to_nat (o mod RAM_SIZE)))
    (seq 0 (Z.to_nat (T.io_size (ev_out s)))).

(** interpreter.rs:412-420 *)
Definition test_vm (chk : bool) (ph : phantom) (max_cycles : nat) : option T.vm :=
  T.init chk (b_offset (boot_rom ph)) (b_size (boot_rom ph)) (b_data (boot_rom ph))
    (b_offset (boot_ram ph)) (b_size (boot_ram ph)) (b_data (boot_ram ph)) (inp_info ph) (out_info ph) max_cycles.
