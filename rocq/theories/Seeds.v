(** * Randomness of the setup

    compiler/src/interpreter.rs:304-410 once more, with the sources of
    randomness and the secret key.  The messages to be encrypted are those of
    [Loader.encrypted_vm]. *)
Require Import ZArith List Bool.
Require Import Verif.Word Verif.Glwe Verif.EncMem Verif.EncVM Verif.Loader.
Import ListNotations.
Open Scope Z_scope.

(** The library, as far as it handles randomness and keys.  A source
    (poulpy-hal) is a generator made from a seed. *)
Record library := Library {
  source : Type; new_source : list Z -> source;
  (** [GLWESecret::alloc] and [fill_ternary_prob], [LWESecret::alloc] and [fill_binary_block] *)
  gsecret : Type; gen_glwe : source -> gsecret * source;
  lsecret : Type; gen_lwe : source -> lsecret * source;
  (** [GLWE::encrypt_sk] (masks from the first source, errors from the second), [GLWE::decrypt] with decoding *)
  cipher : Type; encrypt : gsecret -> poly -> source -> source -> cipher * source * source;
  decrypt : gsecret -> cipher -> poly;
  (** keys.rs:140-194, [VMKeys::encrypt_sk], and its preparation *)
  eval_keys : Type; gen_keys : lsecret -> gsecret -> source -> source -> eval_keys * source * source }.

Section Setup.
Variable L : library.
Notation two := (source L * source L)%type.

Fixpoint thread_map {A B S} (f : A -> S -> B * S) (l : list A) (s : S) : list B * S :=
  match l with
  | [] => ([], s)
  | a :: l' => let (b, s1) := f a s in let (bs, s2) := thread_map f l' s1 in (b :: bs, s2)
  end.
Definition seal_poly (k : gsecret L) (m : poly) (s : two) : cipher L * two :=
  let '(c, xa, xe) := encrypt L k m (fst s) (snd s) in (c, (xa, xe)).
(** memory.rs:471-482: every ciphertext of the array; the data the VM passes covers them all *)
Definition seal_array (k : gsecret L) (b : bitarray poly) (s : two) : bitarray (cipher L) * two :=
  let (cs, s') := thread_map (seal_poly k) (ba_data b) s in (BitArray cs (ba_bits b), s').
(** memory.rs:48-75 *)
Definition seal_memory (k : gsecret L) (m : memory poly) (s : two) : memory (cipher L) * two :=
  let (bs, s') := thread_map (seal_array k) (m_planes m) s in (Memory bs (m_size m) (m_bits m) (m_state m), s').
(** fhevm/src/interpreter.rs:302-358, in this order *)
Definition seal_roms (k : gsecret L) (r : eroms poly) (s : two) : eroms (cipher L) * two :=
  let (m1, s) := seal_memory k (e_rs1 r) s in
  let (m2, s) := seal_memory k (e_rs2 r) s in
  let (m3, s) := seal_memory k (e_rd r) s in
  let (m4, s) := seal_memory k (e_imm r) s in
  let (m5, s) := seal_memory k (e_rdu r) s in
  let (m6, s) := seal_memory k (e_mu r) s in
  let (m7, s) := seal_memory k (e_pcu r) s in
  (ERoms m4 m1 m2 m3 m5 m6 m7, s).

(** What whoever runs the encrypted program has: everything in [EncryptedVM]
    except the secret key and the shadow VM.  Registers and pc, which start as
    zeros without encryption, are left out. *)
Record published := Published {
  pub_rom : eroms (cipher L); pub_keys : eval_keys L; pub_ram : memory (cipher L);
  pub_rom_size : nat; pub_ram_size : nat; pub_out : T.io_info; pub_offset : Z; pub_max : nat }.
(** compiler/src/interpreter.rs:350-409, for given seeds of the three sources *)
Definition publish_with (seed_xs seed_xa seed_xe : list Z) (s : enc_vm) : gsecret L * published :=
  let (k, xs) := gen_glwe L (new_source L seed_xs) in
  let (kl, _) := gen_lwe L xs in
  let v := ev_vm s in
  let (rom, s1) := seal_roms k (v_rom v) (new_source L seed_xa, new_source L seed_xe) in
  let '(keys, xa, xe) := gen_keys L kl k (fst s1) (snd s1) in
  let (ram, _) := seal_memory k (v_ram v) (xa, xe) in
  (k, Published rom keys ram (v_rom_size v) (v_ram_size v) (ev_out s) (ev_offset s) (ev_max s)).
(** compiler/src/interpreter.rs:351-353: [Source::new([0u8; 32])], three times *)
Definition phantom_seed : list Z := repeat 0 32.
Definition publish (s : enc_vm) : gsecret L * published := publish_with phantom_seed phantom_seed phantom_seed s.
End Setup.
Arguments pub_rom {L}. Arguments pub_keys {L}. Arguments pub_ram {L}. Arguments pub_rom_size {L}. Arguments pub_ram_size {L}.
Arguments pub_out {L}. Arguments pub_offset {L}. Arguments pub_max {L}.
