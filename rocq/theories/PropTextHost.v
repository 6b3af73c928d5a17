(** * C100: the text of the host side

    [TextHost.v] is compiler/src/interpreter.rs (loading an ELF image, building
    the encrypted VM with its settings, running it, reading the output tape),
    translated by tools/gen_host.py.  Its functions are composed here as the
    `main` functions of compiler-tests/*/src/main.rs compose them; the result is
    the one [HostSpec.v] states. *)
Require Import ZArith List Bool Lia.
From Verif Require Import Rust RustIter RustStr RustLib RustEng RustHost TextLib TextEng TextMemFacts TextPrep TextMemClient PropTextMem TextPlanes TextShadow TextCycle TextClient TextIdeal.
Require Verif.Word Verif.ListFacts Verif.Codec Verif.DebugVM Verif.Glwe Verif.EncMem Verif.MemSpec Verif.Scratch Verif.CycleScratch
  Verif.EncVM Verif.EncSpec Verif.EncTrack
  Verif.TestVM Verif.TestRunSpec Verif.Loader Verif.LoadSpec Verif.LoadFacts Verif.LoadRun Verif.Host Verif.HostSpec Verif.PropHost Verif.PropLoad
  Verif.TextTest Verif.TextTestFacts Verif.TextTestExec Verif.TextHost Verif.TextHostFacts Verif.PropTextEnc Verif.TextHostRun.
Module HR := Verif.TextHostRun.
Module HF := Verif.TextHostFacts.
Module PE := Verif.PropTextEnc.
Module H := Verif.TextHost.
Module Ld := Verif.Loader.
Module X := Verif.TextTest.
Module TV := Verif.TestVM.
Import ListNotations.
Open Scope Z_scope.
Local Notation chk := overflow_checks.

(** [from_elf], over any library, ELF parser included: the text is the model. *)
Theorem C100_from_elf : forall (L : library) (E : engine L) (Hs : host L E) p bytes,
  (forall x hs, ElfBytes_minimal_parse Hs (map Int bytes) = Some x -> ElfBytes_segments Hs x = Some hs -> Forall HF.hdr_typed hs) ->
  H.Phantom_from_elf L E Hs p (map Int bytes) =
  (x <- ElfBytes_minimal_parse Hs (map Int bytes) ;;
   hs <- ElfBytes_segments Hs x ;;
   option_map (HF.phantom_of bytes) (Ld.from_elf (chk p) (HF.elf_of Hs x hs bytes))).
Proof. intros L E Hs. exact (HF.from_elf_text Hs). Qed.
Print Assumptions C100_from_elf.

(** ** the whole program *)
Section Main.
Context {GL KL SL Src : Type}.
Variables (log : nat) (sp : space GL KL SL) (garbage : Z -> nat -> list Z) (garbage_i64 : Z -> nat -> int I64)
  (gl_n : GL -> Z) (enc dec : Z -> list Z -> list Z) (next : Src -> Src)
  (sw : word_space GL KL SL) (shuffle : list (nat * list Z) -> list (nat * list Z)).
Notation A := (G.Ideal log).
Notation L := (lib A sp garbage garbage_i64 gl_n enc dec next).
Notation N := (eng A sp garbage garbage_i64 gl_n enc dec next sw (ideal_bdd log) G.decrypt_word Bdd.pack_bits shuffle).
Variables (p : profile) (l : GL) (sl : SL) (kl : KL) (fuel : nat) (pm : layouts GL SL) (Hs : host L N).
Notation y := (cycle_costs_at sp sw l sl kl).
Notation debug := (HR.debug log sp garbage garbage_i64 gl_n enc dec next sw shuffle Hs).
Notation threads := (HR.threads log sp garbage garbage_i64 gl_n enc dec next sw shuffle Hs).
Notation work := (HR.work log sp garbage garbage_i64 gl_n enc dec next sw shuffle Hs).
Notation gives := (HR.gives log sp garbage garbage_i64 gl_n enc dec next sw shuffle Hs).

(** compiler-tests/template/src/main.rs:32,47-64, and the same in the other programs (see
    Host.v); compiling the guest and printing are left out *)
Definition text_main (bytes tape : list (int U8)) (cycles : int USize) : option (list (int U8)) :=
  pz <- H.Phantom_from_elf L N Hs p bytes ;;
  ev <- H.Phantom_encrypted_vm L N Hs p pz tape cycles ;;
  ev <- H.EncryptedVM_execute L N Hs p fuel ev ;;
  '(ev, have) <- H.EncryptedVM_output_tape L N Hs p ev ;;
  vm <- H.Phantom_test_vm p pz cycles ;;
  vm <- X.TestVM_read_input_tape p vm tape ;;
  vm <- X.TestVM_execute p fuel vm ;;
  out <- X.TestVM_output_tape p vm ;;
  if RustIter.eq_list out have then Some out else None.

(** the library and the machine: the loops of the text may run long enough,
    noise decrypts, the parameters have their layouts, 2^24 bytes are enough for
    the client and are given, the keys are made; with fewer than 2^40 threads
    the space of [execute] is given and amounts of scratch space fit 64 bits.
    More threads are excluded only without overflow checks, where 2^24 times
    their number wraps. *)
Definition machine_ok (size : Z) (n : nat) : Prop :=
  (7 < fuel)%nat /\ (n < fuel)%nat /\ (log <= 62)%nat /\ shuffles shuffle /\ PE.client_ok log sp gl_n enc dec l sl pm (2 ^ 24) /\ gives (2 ^ 24) /\
  HR.keys_ok log sp garbage garbage_i64 gl_n enc dec next sw shuffle kl Hs /\ CryptographicParameters_new Hs = pm /\
  0 <= val (num_cpus_get_physical Hs) /\ (chk p = true \/ threads < 2 ^ 40) /\
  (threads < 2 ^ 40 -> gives work /\ PE.in_bytes sp sw l sl kl log (Z.to_nat (Z.log2_up (size / 4))) 10 (Z.to_nat threads)).

(** C100.  [x], [hs]: what the parser of the container makes of the file. *)
Theorem C100_main : forall bytes x hs ph tape n,
  ElfBytes_minimal_parse Hs (map Int bytes) = Some x -> ElfBytes_segments Hs x = Some hs ->
  Verif.LoadSpec.elf_ok (HF.elf_of Hs x hs bytes) -> Ld.from_elf (chk p) (HF.elf_of Hs x hs bytes) = Some ph ->
  let rom := Ld.b_data (Ld.boot_rom ph) in
  let size := Z.of_nat (length rom) in
  0 < size -> Ld.b_offset (Ld.boot_ram ph) + 4096 <= 2 ^ 32 ->
  Forall TestRunSpec.is_byte tape -> Z.of_nat (length tape) < 2 ^ 63 -> Z.of_nat n < 2 ^ 32 -> machine_ok size n ->
  text_main (map Int bytes) (map Int tape) (Int (Z.of_nat n)) =
  match Y.cycles_space y (Z.of_nat log) (Z.log2_up (size / 4)) 5 10 true debug threads work n with
  | Some _ => option_map (map Int)
      (Verif.HostSpec.host_spec (chk p) debug threads n (Ld.b_offset (Ld.boot_ram ph)) rom (Ld.b_data (Ld.boot_ram ph))
        (TV.start_addr (Ld.inp_info ph), TV.io_size (Ld.inp_info ph)) (TV.start_addr (Ld.out_info ph), TV.io_size (Ld.out_info ph)) tape)
  | None => None
  end.
Proof.
  intros bytes x hs ph tape n EX EH HE HP rom size HZ HO HB LT HN (FU & FN & LG & SHF & CO & GI & KO & PM & CP & TH & WO).
  assert (T0 : 0 <= threads) by (apply PropHost.number_pos; exact CP).
  unfold text_main. rewrite C100_from_elf.
  2: { intros x' hs' EX' EH'. rewrite EX in EX'. injection EX' as <-. rewrite EH in EH'. injection EH' as <-.
    destruct HE as (_ & F & _). unfold HF.elf_of in F. cbn [Ld.e_phdrs] in F. clear - F. induction hs as [|h hs IH]; [constructor|].
    cbn [map] in F. apply Forall_cons_iff in F as [(F1 & F2 & F3 & F4) F]. constructor; [|exact (IH F)].
    unfold Verif.LoadSpec.is_u32 in *. cbn in F1, F2, F4. unfold HF.hdr_typed, TextTestFacts.usize_val. change (2 ^ 32) with 4294967296 in *. lia. }
  rewrite EX, EH, HP. cbn [option_map].
  destruct (LoadRun.rom_facts (chk p) _ ph HE HP) as (_ & R2 & _ & _).
  assert (HZ' : 0 < Ld.b_size (Ld.boot_rom ph)) by (rewrite R2; exact HZ).
  pose proof (HR.enc_side log sp garbage garbage_i64 gl_n enc dec next sw shuffle p l sl kl fuel pm Hs _ ph bytes tape n HE HP HB T0 HZ' HN FU LG SHF CO GI KO PM TH WO) as ES.
  pose proof (HR.test_half log p fuel _ ph bytes tape n HE HP HB HZ' HN FU LG LT FN) as TS.
  pose proof (PropHost.run_eq (chk p) (debug_assertions p) _ ph tape log HE HP HB HO debug threads n (fun _ => V.sched (PE.seq_env (Z.to_nat threads))) T0 HN) as RE.
  rewrite Z2Nat.id in ES by (apply Z.log2_up_nonneg). fold rom in ES. fold size in ES.
  fold rom in RE. rewrite <- RE.
  2: { intros P k. change (Verif.EncVM.Env (Z.to_nat threads) (V.sched (PE.seq_env (Z.to_nat threads)))) with (PE.seq_env (Z.to_nat threads)).
    apply (PE.seq_env_ok garbage garbage_i64 gl_n enc dec l). lia. }
  assert (RP : forall k, map (fun k => Verif.EncVM.Env (Z.to_nat threads) (V.sched (PE.seq_env (Z.to_nat threads)))) (seq k n) = repeat (PE.seq_env (Z.to_nat threads)) n).
  { clear. induction n as [|n IH]; intro k; [reflexivity|]. cbn [seq map repeat]. rewrite IH. reflexivity. }
  rewrite (RP 0%nat). clear RP RE.
  transitivity (have <- (ev <- H.Phantom_encrypted_vm L N Hs p (HF.phantom_of bytes ph) (map Int tape) (Int (Z.of_nat n)) ;;
                         ev <- H.EncryptedVM_execute L N Hs p fuel ev ;;
                         '(_, have) <- H.EncryptedVM_output_tape L N Hs p ev ;; Some have) ;;
                out <- (tv <- H.Phantom_test_vm p (HF.phantom_of bytes ph) (Int (Z.of_nat n)) ;;
                        tv <- X.TestVM_read_input_tape p tv (map Int tape) ;;
                        tv <- X.TestVM_execute p fuel tv ;;
                        X.TestVM_output_tape p tv) ;;
                if RustIter.eq_list out have then Some out else None).
  { destruct (H.Phantom_encrypted_vm L N Hs p _ _ _) as [ev|]; [|reflexivity].
    destruct (H.EncryptedVM_execute L N Hs p fuel ev) as [ev1|]; [|reflexivity].
    destruct (H.EncryptedVM_output_tape L N Hs p ev1) as [[ev2 have]|]; [|reflexivity].
    destruct (H.Phantom_test_vm p _ _) as [vm|]; [|reflexivity].
    destruct (X.TestVM_read_input_tape p vm _) as [vm1|]; [|reflexivity].
    destruct (X.TestVM_execute p fuel vm1) as [vm2|]; reflexivity. }
  lazymatch type of ES with ?lhs = _ => lazymatch goal with |- match ?xx with _ => _ end = _ => change xx with lhs end end.
  rewrite ES. rewrite TS. clear ES TS.
  destruct (Y.cycles_space y _ _ 5 10 true _ _ _ n); [|reflexivity].
  destruct (Ld.encrypted_vm log (debug_assertions p) (chk p) _ ph tape n) as [ev|]; [|reflexivity].
  destruct (negb (chk p) || _); [|reflexivity].
  destruct (Ld.enc_execute log (chk p) _ ev) as [ev1|]; [|reflexivity].
  destruct (Ld.enc_output (chk p) ev1) as [have|]; [|reflexivity]. cbn [option_map].
  destruct (Ld.test_vm (chk p) ph n) as [tv|]; [|reflexivity].
  destruct (TV.read_input_tape (chk p) tv tape) as [tv1|]; [|reflexivity].
  destruct (TV.execute (chk p) tv1) as [tv2|]; [|reflexivity].
  destruct (TV.output_tape (chk p) tv2) as [out|]; [|reflexivity]. cbn [option_map].
  rewrite HF.eq_list_int, map_map, (map_ext (fun z => val (Int z)) (fun z => z)), map_id by reflexivity.
  destruct (EncVM.eqb_list out have); reflexivity.
Qed.
End Main.
Print Assumptions C100_main.

(** ** the image of C37 on a small machine: 4 coefficients, 2 threads *)
Notation ex_L := (lib (G.Ideal 2) ex_sp (fun _ _ => repeat 7 4) (fun _ _ => Int 7) (fun _ => 4) (fun _ x => x) (fun _ x => x) (fun s : nat => Datatypes.S s)).
Notation ex_N := (eng (G.Ideal 2) ex_sp (fun _ _ => repeat 7 4) (fun _ _ => Int 7) (fun _ => 4) (fun _ x => x) (fun _ x => x) (fun s : nat => Datatypes.S s)
  PE.ex_sw (ideal_bdd 2) G.decrypt_word Bdd.pack_bits (@rev _)).
Definition hdr (h : Ld.phdr) : ProgramHeader :=
  mk_ProgramHeader (Int (Ld.p_type h)) (Int (Ld.p_flags h)) (Int (Ld.p_offset h)) (Int (Ld.p_vaddr h)) (Int (Ld.p_filesz h)) (Int (Ld.p_memsz h)).
Definition sec (i : option TV.io_info) : option SectionHeader :=
  option_map (fun i => mk_SectionHeader (Int (TV.start_addr i)) (Int (TV.io_size i))) i.
Definition ex_e : Ld.elf := PropLoad.ex_elf 0 8.
(** two threads by the environment; [dbg] is what PHANTOM_DEBUG is set to *)
Definition ex_host (dbg : option (list Z)) : host ex_L ex_N :=
  {| ElfBytes := unit; ScratchOwned := Z; GLWESecret := unit; LWESecret := unit; VMKeys := unit; Degree := unit; Rank := unit;
     ElfBytes_minimal_parse := fun _ => Some tt;
     ElfBytes_segments := fun _ => Some (map hdr (Ld.e_phdrs ex_e));
     ElfBytes_section_header_by_name := fun _ s => Some (sec (if RustIter.eq_list s (str [46; 105; 110; 112; 100; 97; 116; 97] (* .inpdata *)) then Ld.e_inpdata ex_e else Ld.e_outdata ex_e));
     env_var := fun s => if RustIter.eq_list s (str HR.var_threads) then Some (map Int [50])
                         else if RustIter.eq_list s (str HR.var_debug) then option_map (map Int) dbg else None;
     num_cpus_get_physical := Int 8;
     CryptographicParameters_new := (PE.ex_pm : RustEng.CryptographicParameters ex_N);
     CryptographicParameters_n_glwe := fun _ => tt; CryptographicParameters_rank := fun _ => tt; CryptographicParameters_n_lwe := fun _ => tt;
     CryptographicParameters_lwe_block_size := fun _ => Int 7;
     Source_new := fun _ => 0%nat;
     ScratchOwned_alloc := fun n => Some (val n); ScratchOwned_borrow := fun n => n;
     GLWESecret_alloc := fun _ _ => tt; GLWESecret_fill_ternary_prob := fun _ _ x => Some (tt, x);
     LWESecret_alloc := fun _ => tt; LWESecret_fill_binary_block := fun _ _ x => Some (tt, x);
     Secret_alloc := fun _ _ => tt; Secret_prepare := fun _ _ _ => Some tt;
     VMKeys_encrypt_sk := fun _ _ _ a b => Some (a, b, tt);
     Keys_alloc := fun _ => 0%nat; Keys_prepare := fun _ _ _ _ => Some 0%nat |}.
Definition ex_main (dbg : option (list Z)) (n : nat) : option (list (int U8)) :=
  text_main 2 ex_sp (fun _ _ => repeat 7 4) (fun _ _ => Int 7) (fun _ => 4) (fun _ x => x) (fun _ x => x) (fun s : nat => Datatypes.S s) PE.ex_sw (@rev _)
    (Build_profile true true) 20 (ex_host dbg) (map Int (Ld.e_bytes ex_e)) (map Int PropLoad.ex_tape) (Int (Z.of_nat n)).
Example C100_case : ex_main None 10 = Some (map Int [42; 1; 0; 0]) /\ ex_main (Some [84; 114; 117; 69]) 10 = Some (map Int [42; 1; 0; 0]).
Proof.
  assert (OK : forall dbg, Verif.LoadSpec.elf_ok (HF.elf_of (ex_host dbg) tt (map hdr (Ld.e_phdrs ex_e)) (Ld.e_bytes ex_e))).
  { intro dbg. change (Verif.LoadSpec.elf_ok ex_e). apply PropLoad.ex_elf_ok; unfold Verif.LoadSpec.is_u32; lia. }
  assert (HP : forall dbg, Ld.from_elf true (HF.elf_of (ex_host dbg) tt (map hdr (Ld.e_phdrs ex_e)) (Ld.e_bytes ex_e)) = Some (PropLoad.ex_ph 0 8)).
  { intro dbg. change (Ld.from_elf true ex_e = Some (PropLoad.ex_ph 0 8)). vm_compute. reflexivity. }
  assert (G : forall dbg, ex_main dbg 10 =
    let d := Verif.Host.flag_of dbg in
    match Y.cycles_space (cycle_costs_at ex_sp PE.ex_sw 0%nat 0%nat 0%nat) 2 (Z.log2_up (24 / 4)) 5 10 true d 2 (2 ^ 24 * 2) 10 with
    | Some _ => option_map (map Int) (Verif.HostSpec.host_spec true d 2 10 (2 ^ 18) (Ld.b_data (Ld.boot_rom (PropLoad.ex_ph 0 8))) (Ld.b_data (Ld.boot_ram (PropLoad.ex_ph 0 8)))
                  (2 ^ 18, 4) (2 ^ 18 + 4, 4) PropLoad.ex_tape)
    | None => None
    end).
  { intro dbg. unfold ex_main.
    assert (D : HR.debug 2 ex_sp (fun _ _ => repeat 7 4) (fun _ _ => Int 7) (fun _ => 4) (fun _ x => x) (fun _ x => x) (fun s : nat => Datatypes.S s) PE.ex_sw (@rev _) (ex_host dbg) = Verif.Host.flag_of dbg).
    { unfold HR.debug. f_equal. destruct dbg as [d|]; [|reflexivity]. cbn [ex_host env_var option_map HF.text_of]. unfold HF.text_of.
      cbn. rewrite map_map. cbn. rewrite map_id. reflexivity. }
    pose proof (C100_main 2 ex_sp (fun _ _ => repeat 7 4) (fun _ _ => Int 7) (fun _ => 4) (fun _ x => x) (fun _ x => x) (fun s : nat => Datatypes.S s) PE.ex_sw (@rev _)
      (Build_profile true true) 0%nat 0%nat 0%nat 20 PE.ex_pm (ex_host dbg) (Ld.e_bytes ex_e) tt (map hdr (Ld.e_phdrs ex_e)) (PropLoad.ex_ph 0 8) PropLoad.ex_tape 10
      eq_refl eq_refl (OK dbg) (HP dbg)) as M. cbv zeta in M. rewrite D in M. rewrite M; clear M.
    - reflexivity.
    - vm_compute. reflexivity.
    - vm_compute. discriminate.
    - unfold PropLoad.ex_tape, TestRunSpec.is_byte. repeat constructor; lia.
    - vm_compute. reflexivity.
    - vm_compute. reflexivity.
    - split; [lia|]. split; [lia|]. split; [lia|]. split; [intro l; apply Permutation.Permutation_rev|].
      split; [repeat split; vm_compute; congruence|].
      split; [eexists; split; reflexivity|].
      split; [repeat split; intros; try discriminate; reflexivity|].
      split; [reflexivity|]. split; [cbn; lia|]. split; [left; reflexivity|]. intros _.
      split; [eexists; split; reflexivity|].
      repeat split; vm_compute; congruence. }
  split; rewrite G; vm_compute; reflexivity.
Qed.
