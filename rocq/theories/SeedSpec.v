(** * What encryption should hide *)
Require Import ZArith List Bool.
Require Import Verif.Word Verif.Isa Verif.Glwe Verif.EncMem Verif.EncVM Verif.Loader Verif.LoadSpec Verif.RunSpec Verif.TestRunSpec Verif.Seeds.
Require Verif.DebugVM.
Import ListNotations.
Open Scope Z_scope.

(** messages: polynomials of bits *)
Definition message (log : nat) (p : poly) : Prop := length p = ring log /\ Forall (fun c => c = 0 \/ c = 1) p.
(** what is encrypted under a key is decrypted with it *)
Definition correct (log : nat) (L : library) : Prop :=
  forall k m xa xe, message log m -> decrypt L k (fst (fst (encrypt L k m xa xe))) = m.
(** a ciphertext of a source's state; the next state does not depend on what is encrypted *)
Definition steady (L : library) : Prop :=
  forall k m m' xa xe, snd (fst (encrypt L k m xa xe)) = snd (fst (encrypt L k m' xa xe)) /\
    snd (encrypt L k m xa xe) = snd (encrypt L k m' xa xe).

(** [ev] is the encrypted VM for the image [ph] and the input [tape] *)
Definition started (log : nat) (ph : phantom) (tape : list Z) (ev : enc_vm) : Prop :=
  Forall is_byte tape /\ exists dbg chk debug n e, elf_ok e /\ from_elf chk e = Some ph /\
    encrypted_vm log dbg chk debug ph tape n = Some ev.
(** a procedure that only uses the library and what is published *)
Definition procedure (R : Type) := forall L : library, published L -> option R.
(** the tables [r] and the RAM words [ram] are those of the image and the tape *)
Definition code_of (ph : phantom) (r : DebugVM.roms) : Prop :=
  exists dbg, forall k w, nth_error (chunks4 (b_data (boot_rom ph))) k = Some w -> row_of dbg r k w.
Definition data_of (ph : phantom) (tape ram : list Z) : Prop :=
  forall i, nth_error (ram_bytes ram) i =
    with_tape (b_data (boot_ram ph)) (T.start_addr (inp_info ph) - b_offset (boot_ram ph)) tape i.

(** all ciphertexts, and all messages, in one list *)
Definition flat {C} (m : memory C) : list C := concat (map ba_data (m_planes m)).
Definition flat_roms {C} (r : eroms C) : list C :=
  flat (e_rs1 r) ++ flat (e_rs2 r) ++ flat (e_rd r) ++ flat (e_imm r) ++ flat (e_rdu r) ++ flat (e_mu r) ++ flat (e_pcu r).
