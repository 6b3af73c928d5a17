(** * Loading an image and comparing outputs (C37, C39, C40, C41) *)
Require Import ZArith List Bool Lia.
Require Import Verif.Word Verif.Isa Verif.EvalSpec Verif.RunSpec Verif.TestRunSpec Verif.EncVM Verif.Loader Verif.LoadSpec Verif.LoadFacts
  Verif.LoadRun Verif.EndToEnd.
Require Verif.EncSpec Verif.PropEnc Verif.PropTest.
Import ListNotations.
Open Scope Z_scope.

(** ** a concrete image: reads a word from the input section, adds one, writes it
    to the output section; RAM segment at [2^18 + o].  The last word is the
    [unimp] that the runtime places behind its jump (runtime/src/lib.rs): not an
    RV32IM instruction, and not reached. *)
Definition ex_prog (o : Z) : list Z :=
  asm [LUI 1 0x40; LOAD LW 2 1 o; OPI ADDI 2 2 1; STORE SW 1 2 (o + 4); JAL 0 0] ++ [0xC0001073].
Lemma ex_prog_ok o : 0 <= o < 2000 ->
  Forall word (ex_prog o) /\ Forall (fun w => legal_word w \/ DecodeSpec.lenient w) (ex_prog o) /\ ex_prog o <> [].
Proof.
  intros Ho. unfold ex_prog.
  assert (L : Forall legal [LUI 1 0x40; LOAD LW 2 1 o; OPI ADDI 2 2 1; STORE SW 1 2 (o + 4); JAL 0 0]).
  { repeat apply Forall_cons; try apply Forall_nil; cbn [legal]; unfold reg; repeat split; try lia; reflexivity. }
  split; [|split; [|discriminate]]; apply Forall_app; split.
  - apply RunFacts.asm_words. exact L.
  - repeat apply Forall_cons; try apply Forall_nil. unfold word. lia.
  - unfold asm. apply Forall_map. eapply Forall_impl; [|exact L]. intros i Hi. left. exists i. auto.
  - repeat apply Forall_cons; try apply Forall_nil. right. right. right. vm_compute. reflexivity.
Qed.
Definition elf_with (prog : list Z) (o memsz : Z) : elf := {|
  e_bytes := image prog ++ [7; 7; 7; 7; 9; 9; 9; 9];
  e_phdrs := [Phdr 1 5 0 0 24 24; Phdr 1 6 24 (2 ^ 18 + o) 8 memsz];
  e_inpdata := Some {| T.start_addr := 2 ^ 18 + o; T.io_size := 4 |};
  e_outdata := Some {| T.start_addr := 2 ^ 18 + o + 4; T.io_size := 4 |} |}.
Definition ex_elf (o memsz : Z) : elf := elf_with (ex_prog o) o memsz.
Lemma elf_with_ok prog o memsz : 0 <= o < 2 ^ 31 -> is_u32 memsz -> elf_ok (elf_with prog o memsz).
Proof.
  intros H HM. unfold elf_ok, elf_with. cbn [e_bytes e_phdrs e_inpdata e_outdata].
  split; [|split; [|split]].
  - apply Forall_app. split.
    + unfold image. rewrite flat_map_concat_map. apply Forall_concat. apply Forall_map. apply Forall_forall. intros i _.
      unfold le_bytes. repeat apply Forall_cons; try apply Forall_nil; unfold is_byte, byte; apply Z.mod_pos_bound; lia.
    + repeat apply Forall_cons; try apply Forall_nil; unfold is_byte; lia.
  - repeat apply Forall_cons; try apply Forall_nil; unfold phdr_ok; cbn [p_offset p_vaddr p_filesz p_memsz]; unfold is_u32 in *; lia.
  - intros i E. assert (i = {| T.start_addr := 2 ^ 18 + o; T.io_size := 4 |}) by congruence. subst i.
    unfold info_ok, is_u32. cbn [T.start_addr T.io_size]. lia.
  - intros i E. assert (i = {| T.start_addr := 2 ^ 18 + o + 4; T.io_size := 4 |}) by congruence. subst i.
    unfold info_ok, is_u32. cbn [T.start_addr T.io_size]. lia.
Qed.
Lemma ex_elf_ok o memsz : 0 <= o < 2 ^ 31 -> is_u32 memsz -> elf_ok (ex_elf o memsz).
Proof. apply elf_with_ok. Qed.
Definition ex_tape : list Z := [41; 1; 0; 0].
Definition ph_of (e : elf) : phantom :=
  match from_elf true e with Some p => p | None => Phantom (BootMemory 0 0 []) (BootMemory 0 0 []) {| T.start_addr := 0; T.io_size := 0 |} {| T.start_addr := 0; T.io_size := 0 |} end.
Definition ex_ph (o memsz : Z) : phantom := ph_of (ex_elf o memsz).

(** ** C40 *)
(** Full statement: [from_elf chk e = Some ph -> all_loaded e ph /\ rest_zero e ph].
    False: a segment that is larger in memory than in the file (for example
    .data followed by .bss) is skipped as a whole. *)
Theorem C40_partial_segment_refuted :
  exists e ph, elf_ok e /\ from_elf true e = Some ph /\ ~ all_loaded e ph.
Proof.
  exists (ex_elf 0 16), (ex_ph 0 16). split; [apply ex_elf_ok; unfold is_u32; lia|]. split; [vm_compute; reflexivity|].
  intros H. specialize (H (Phdr 1 6 24 (2 ^ 18) 8 16) (2 ^ 18 + 1)).
  assert (C : ram_at (ex_ph 0 16) (2 ^ 18 + 1) = file_byte (ex_elf 0 16) (Phdr 1 6 24 (2 ^ 18) 8 16) (2 ^ 18 + 1)).
  { apply H; [|unfold in_file; cbn; lia]. split; [right; left; reflexivity|]. split; [reflexivity|right; reflexivity]. }
  vm_compute in C. discriminate C.
Qed.
Print Assumptions C40_partial_segment_refuted.

(** Exactly what RAM holds: at an address inside a segment that the file has in
    full, the file's byte for the last such segment; elsewhere zero. *)
Definition wholeb (h : phdr) : bool := (0 <? p_memsz h) && (p_filesz h =? p_memsz h).
Definition coversb (h : phdr) (a : Z) : bool := (p_vaddr h <=? a) && (a <? p_vaddr h + p_filesz h).
Definition data_segments (e : elf) : list phdr :=
  filter (fun h => (p_type h =? 1) && ((p_flags h =? 4) || (p_flags h =? 6))) (e_phdrs e).
Lemma data_segments_eq e : data_segments e = data_hdrs e.
Proof.
  unfold data_segments, data_hdrs, loadable. induction (e_phdrs e) as [|h t IH]; [reflexivity|]. cbn [filter].
  unfold PT_LOAD, PF_R, PF_W in *. change (4 + 2) with 6 in *. destruct (p_type h =? 1); cbn [andb filter]; [|exact IH].
  destruct ((p_flags h =? 4) || (p_flags h =? 6)); [f_equal|]; exact IH.
Qed.
Theorem C40_exact :
  forall chk e ph, elf_ok e -> from_elf chk e = Some ph ->
    b_offset (boot_ram ph) = match data_segments e with [] => 0 | h :: _ => p_vaddr h end /\
    forall a, b_offset (boot_ram ph) <= a < b_offset (boot_ram ph) + 4096 ->
      ram_at ph a = match find (fun h => wholeb h && coversb h a) (rev (data_segments e)) with
                    | Some h => file_byte e h a
                    | None => Some 0
                    end.
Proof.
  intros chk e ph HE HP. rewrite data_segments_eq. destruct (from_elf_ok chk e ph HE HP) as (_ & A & B & _ & C & _ & _ & D & _).
  split; [exact A|]. intros a Ha. unfold ram_at. destruct (Z.leb_spec (b_offset (boot_ram ph)) a); [|lia]. rewrite D.
  replace (b_offset (boot_ram ph) + Z.of_nat (Z.to_nat (a - b_offset (boot_ram ph)))) with a by lia.
  change (source (data_hdrs e) a) with (find (fun h => wholeb h && coversb h a) (rev (data_hdrs e))).
  destruct (find _ _); [reflexivity|].
  rewrite nth_error_nth' with (d := 0); [|rewrite repeat_length; unfold RAM_SIZE; lia]. f_equal. apply nth_repeat.
Qed.
Print Assumptions C40_exact.
(** If every data segment is present in the file in full, everything is loaded
    (where segments overlap, provided the file says the same for both). *)
Theorem C40_whole_segments :
  forall chk e ph, elf_ok e -> from_elf chk e = Some ph ->
    (forall h, data_segment e h -> whole h) ->
    (forall h h' a, data_segment e h -> data_segment e h' -> in_file h a -> in_file h' a -> file_byte e h a = file_byte e h' a) ->
    all_loaded e ph.
Proof.
  intros chk e ph HE HP HW HC h a Hh Ha.
  destruct (from_elf_ok chk e ph HE HP) as (_ & _ & B & _ & _ & _ & R & D & _).
  pose proof (proj2 (data_hdrs_in e h) Hh) as Hi. pose proof (HW h Hh) as HWh.
  assert (Hc : copied h = true). { unfold copied, whole, in_file in *. rewrite HWh, Z.eqb_refl. destruct (Z.ltb_spec 0 (p_memsz h)); [reflexivity|lia]. }
  destruct (R h Hi Hc) as (R1 & R2 & _). unfold in_file in Ha.
  unfold ram_at. destruct (Z.leb_spec (b_offset (boot_ram ph)) a); [|lia]. rewrite D.
  replace (b_offset (boot_ram ph) + Z.of_nat (Z.to_nat (a - b_offset (boot_ram ph)))) with a by lia.
  unfold source. destruct (find (fun h0 => copied h0 && in_fileb h0 a) (rev (data_hdrs e))) as [h'|] eqn:F.
  - apply find_some in F as [F1 F2]. apply in_rev in F1. apply andb_true_iff in F2 as [_ F2].
    apply HC; [apply data_hdrs_in; exact F1|exact Hh|apply in_fileb_iff; exact F2|exact Ha].
  - exfalso. pose proof (find_none _ _ F h (proj1 (in_rev _ _) Hi)) as N. cbv beta in N.
    rewrite Hc, (proj2 (in_fileb_iff h a) Ha) in N. discriminate.
Qed.
Print Assumptions C40_whole_segments.
(** Bytes the file has nothing for are zero, for every image. *)
Theorem C40_rest_zero :
  forall chk e ph, elf_ok e -> from_elf chk e = Some ph -> rest_zero e ph.
Proof.
  intros chk e ph HE HP a b HR HN. destruct (from_elf_ok chk e ph HE HP) as (_ & _ & _ & _ & C & _ & _ & D & _).
  unfold ram_at in HR. destruct (Z.leb_spec (b_offset (boot_ram ph)) a); [|discriminate]. rewrite D in HR.
  replace (b_offset (boot_ram ph) + Z.of_nat (Z.to_nat (a - b_offset (boot_ram ph)))) with a in HR by lia.
  unfold source in HR. destruct (find _ (rev (data_hdrs e))) as [h|] eqn:F.
  - exfalso. apply find_some in F as [F1 F2]. apply in_rev in F1. apply andb_true_iff in F2 as [_ F2].
    apply (HN h); [apply data_hdrs_in; exact F1|apply in_fileb_iff; exact F2].
  - apply nth_error_In, repeat_spec in HR. exact HR.
Qed.
Print Assumptions C40_rest_zero.
(** A full segment outside the 4096 bytes that start at the first data segment
    (in particular below it) is never dropped silently: loading fails. *)
Theorem C40_outside_refused :
  forall chk e h, elf_ok e -> data_segment e h -> whole h -> 0 < p_memsz h ->
    (let off := match data_segments e with [] => 0 | h :: _ => p_vaddr h end in
     p_vaddr h < off \/ off + 4096 < p_vaddr h + p_memsz h) ->
    from_elf chk e = None.
Proof.
  intros chk e h HE Hh HW HM HO. destruct (from_elf chk e) as [ph|] eqn:HP; [exfalso|reflexivity].
  destruct (from_elf_ok chk e ph HE HP) as (_ & A & _ & _ & _ & _ & R & _). rewrite data_segments_eq in HO. cbv zeta in HO. rewrite <- A in HO.
  unfold whole in HW. assert (Hc : copied h = true). { unfold copied. rewrite HW, Z.eqb_refl. destruct (Z.ltb_spec 0 (p_memsz h)); [reflexivity|lia]. }
  destruct (R h (proj2 (data_hdrs_in e h) Hh) Hc) as (R1 & R2 & _). unfold RAM_SIZE in R2. lia.
Qed.
Print Assumptions C40_outside_refused.
(** The instruction memory is the first read-execute segment, which must be
    full and at address zero. *)
Theorem C40_code :
  forall chk e ph, elf_ok e -> from_elf chk e = Some ph ->
    exists h, find (fun h => p_flags h =? 5) (filter (fun h => p_type h =? 1) (e_phdrs e)) = Some h /\
      whole h /\ p_vaddr h = 0 /\ b_offset (boot_rom ph) = 0 /\ b_size (boot_rom ph) = p_memsz h /\
      forall a, 0 <= a < p_memsz h -> nth_error (b_data (boot_rom ph)) (Z.to_nat a) = file_byte e h a.
Proof.
  intros chk e ph HE HP. destruct (from_elf_ok chk e ph HE HP) as ((h & I & F & W & V & A & B & U & C & _ & N) & _).
  exists h. repeat match goal with |- _ /\ _ => split end; auto. intros a Ha. rewrite N by lia. unfold file_byte. rewrite V.
  destruct HE as (_ & HH & _). destruct (proj1 (Forall_forall _ _) HH h I) as (O & _). unfold is_u32 in O. f_equal. lia.
Qed.
Print Assumptions C40_code.
Example C40_case : elf_ok (ex_elf 0 8) /\ from_elf true (ex_elf 0 8) = Some (ex_ph 0 8) /\
  (forall h, data_segment (ex_elf 0 8) h -> whole h) /\ ram_at (ex_ph 0 8) (2 ^ 18 + 5) = Some 9 /\ ram_at (ex_ph 0 8) (2 ^ 18 + 8) = Some 0.
Proof.
  split; [apply ex_elf_ok; unfold is_u32; lia|]. split; [vm_compute; reflexivity|]. split; [|split; vm_compute; reflexivity].
  intros h (H & _ & F). destruct H as [<-|[<-|[]]]; reflexivity.
Qed.
(** [C40_outside_refused] applies to a second segment below the first *)
Example C40_outside_case : from_elf false {| e_bytes := e_bytes (ex_elf 0 8);
  e_phdrs := e_phdrs (ex_elf 0 8) ++ [Phdr 1 4 24 (2 ^ 18 - 4) 4 4]; e_inpdata := e_inpdata (ex_elf 0 8); e_outdata := e_outdata (ex_elf 0 8) |} = None.
Proof. vm_compute. reflexivity. Qed.

(** ** C39 *)
(** Row by row, the encrypted tables are the decoded form of the words the
    reference VM fetches; the encrypted RAM and the reference RAM hold the same
    bytes: the tape in the input section, the image elsewhere. *)
Theorem C39_same_start :
  forall log dbg chk debug e ph tape n ev tv0 tv, elf_ok e -> from_elf chk e = Some ph -> Forall is_byte tape ->
    encrypted_vm log dbg chk debug ph tape n = Some ev ->
    test_vm chk ph n = Some tv0 -> T.read_input_tape chk tv0 tape = Some tv ->
    exists r ram, dec_rom (ev_vm ev) = Some r /\ EncSpec.dec_ram (ev_vm ev) = Some ram /\
      (forall k, 4 * Z.of_nat k < b_size (boot_rom ph) ->
         exists w, T.read_word chk (T.rom tv) (4 * Z.of_nat k) = Some w /\ row_of dbg r k w) /\
      T.offset (T.ram tv) = ev_offset ev /\ T.data (T.ram tv) = ram_bytes ram /\ length ram = 1024%nat /\
      (forall i, nth_error (T.data (T.ram tv)) i =
         with_tape (b_data (boot_ram ph)) (T.start_addr (inp_info ph) - b_offset (boot_ram ph)) tape i).
Proof. exact same_start. Qed.
Print Assumptions C39_same_start.
(** The encrypted VM can be started exactly when the reference VM can and the
    program is a non-empty sequence of words that decode. *)
Theorem C39_starts_iff :
  forall log dbg chk debug e ph tape n tv0, elf_ok e -> from_elf chk e = Some ph -> Forall is_byte tape ->
    test_vm chk ph n = Some tv0 ->
    ((exists ev, encrypted_vm log dbg chk debug ph tape n = Some ev) <->
     (exists tv, T.read_input_tape chk tv0 tape = Some tv) /\
     0 < b_size (boot_rom ph) /\ b_size (boot_rom ph) mod 4 = 0 /\
     Forall (DecodeSpec.accepted dbg) (chunks4 (b_data (boot_rom ph)))).
Proof.
  intros log dbg chk debug e ph tape n tv0 HE HP HB T0. split.
  - intros (ev & EV). destruct (enc_boot_inv chk e ph HE HP log dbg debug tape n ev EV HB) as (OK & HF & _).
    split; [|exact OK]. destruct (test_boot chk e ph HE HP tape n HF) as (tv0' & A & B). exists (test_start ph tape n). congruence.
  - intros ((tv & TV) & OK). apply (enc_boot chk e ph HE HP); auto. exact (test_boot_inv chk e ph HE HP tape n tv0 tv T0 TV).
Qed.
Print Assumptions C39_starts_iff.
Example C39_case : exists ev tv0 tv,
  encrypted_vm 6 true true false (ex_ph 0 8) ex_tape 1 = Some ev /\ test_vm true (ex_ph 0 8) 1 = Some tv0 /\
  T.read_input_tape true tv0 ex_tape = Some tv /\ firstn 8 (T.data (T.ram tv)) = [41; 1; 0; 0; 9; 9; 9; 9].
Proof. do 3 eexists. split; [vm_compute; reflexivity|]. split; [vm_compute; reflexivity|]. split; vm_compute; reflexivity. Qed.

(** ** C41 *)
(** The output of the encrypted VM, for every RAM content and every output
    section inside RAM: byte [i] is byte [(start + i - offset) mod 4] of word
    [(start + i - offset) / 4]. *)
Theorem C41_output :
  forall chk s ram, v_ram_size (ev_vm s) = 1024%nat -> EncSpec.dec_ram (ev_vm s) = Some ram -> length ram = 1024%nat ->
    info_ok (ev_out s) -> 0 <= ev_offset s <= T.start_addr (ev_out s) ->
    T.start_addr (ev_out s) + T.io_size (ev_out s) <= ev_offset s + 4096 ->
    exists out, enc_output chk s = Some out /\ Z.of_nat (length out) = T.io_size (ev_out s) /\
      forall i b, nth_error out i = Some b ->
        let a := T.start_addr (ev_out s) + Z.of_nat i - ev_offset s in
        exists w, nth_error ram (Z.to_nat (a / 4)) = Some w /\ b = byte (a mod 4) w.
Proof.
  intros chk s ram H1 H2 H3 H4 H5 H6. rewrite (enc_output_eq chk s ram H1 H2 H3 H4 H5). eexists. split; [reflexivity|].
  destruct H4 as [[U1 U2] [U3 U4]]. rewrite map_length, seq_length. split; [lia|]. intros i b Hb a.
  rewrite nth_error_map in Hb. destruct (nth_error (seq 0 (Z.to_nat (T.io_size (ev_out s)))) i) as [j|] eqn:N; [|discriminate].
  assert (Hi : (i < Z.to_nat (T.io_size (ev_out s)))%nat).
  { pose proof (ListFacts.nth_error_Some_lt _ _ _ _ N) as L. rewrite seq_length in L. exact L. }
  assert (j = i). { apply nth_error_nth with (d := 0%nat) in N. rewrite seq_nth in N by exact Hi. lia. } subst j.
  cbn [option_map] in Hb. cbv zeta in Hb. fold a in Hb. rewrite (Z.mod_small a RAM_SIZE) in Hb by (unfold a, RAM_SIZE; lia).
  assert (0 <= a / 4 < 1024) by (unfold a; split; [apply Z.div_pos; lia|apply Z.div_lt_upper_bound; lia]).
  destruct (ListFacts.nth_error_lt _ ram (Z.to_nat (a / 4)) ltac:(lia)) as [w Hw]. exists w. split; [exact Hw|].
  rewrite (nth_error_nth _ _ 0 Hw) in Hb. congruence.
Qed.
Print Assumptions C41_output.
(** an output section that crosses a word boundary *)
Example C41_case : exists ev, encrypted_vm 6 true true false (ex_ph 0 8) ex_tape 1 = Some ev /\
  let s := {| ev_vm := ev_vm ev; ev_out := {| T.start_addr := 2 ^ 18 + 3; T.io_size := 3 |}; ev_offset := 2 ^ 18; ev_max := 1; ev_debug := false |} in
  enc_output true s = Some [0; 9; 9] /\ v_ram_size (ev_vm s) = 1024%nat.
Proof. eexists. split; [vm_compute; reflexivity|]. vm_compute. auto. Qed.

(** ** C37 *)
(** For every image whose code consists of words the decoder accepts (RV32IM
    encodings and the words listed in C04; all executed words must be RV32IM), every tape and every number
    of cycles such that the run of the RISC-V machine stays in the supported
    set: both VMs start, run to the end and output the same bytes, which are
    those of the RISC-V machine. *)
Theorem C37_same_output :
  forall log dbg chk debug e ph prog tape n es,
    elf_ok e -> from_elf chk e = Some ph -> b_data (boot_rom ph) = image prog -> Forall word prog ->
    Forall (fun w => legal_word w \/ DecodeSpec.lenient w) prog -> prog <> [] ->
    Forall is_byte tape -> input_fits ph tape -> output_fits ph ->
    b_offset (boot_ram ph) + 4096 <= 2 ^ 32 -> (4096 | b_offset (boot_ram ph) - 2 ^ 18) ->
    length es = n -> Forall EncSpec.env_ok es -> Z.of_nat n < 2 ^ 32 ->
    along (supported (b_offset (boot_ram ph))) prog n (boot_machine ph tape) ->
    exists tv0 tv tv' ev ev' m',
      test_vm chk ph n = Some tv0 /\ T.read_input_tape chk tv0 tape = Some tv /\ T.execute chk tv = Some tv' /\
      encrypted_vm log dbg chk debug ph tape n = Some ev /\ enc_execute log chk es ev = Some ev' /\
      isa_run prog n (boot_machine ph tape) = Some m' /\
      T.output_tape chk tv' = Some (output_of ph m') /\ enc_output chk ev' = Some (output_of ph m').
Proof.
  intros log dbg chk debug e ph prog tape n es HE HP HI HL HA HN HB HF HO H1 H2 Hn Henv Hc Ha.
  assert (HA' : Forall (DecodeSpec.accepted dbg) prog).
  { apply Forall_forall. intros w Hw. apply DecodeAccept.accepted_iff; [exact (proj1 (Forall_forall _ _) HL w Hw)|exact (proj1 (Forall_forall _ _) HA w Hw)]. }
  exact (same_output log dbg chk debug e ph prog tape HE HP HI HL HA' HN HB HF H1 H2 n es Hn Henv Hc HO Ha).
Qed.
Print Assumptions C37_same_output.
(** The placement of RAM matters: with the RAM segment 16 bytes above 2^18, a
    program all of whose accesses are supported gives different outputs. *)
Theorem C37_other_base_refuted :
  exists e ph prog tape n es tv0 tv tv' ev ev' m' out out',
    elf_ok e /\ from_elf true e = Some ph /\ b_data (boot_rom ph) = image prog /\ Forall word prog /\
    Forall (fun w => legal_word w \/ DecodeSpec.lenient w) prog /\ prog <> [] /\
    Forall is_byte tape /\ input_fits ph tape /\ output_fits ph /\ b_offset (boot_ram ph) + 4096 <= 2 ^ 32 /\
    length es = n /\ Forall EncSpec.env_ok es /\
    along (supported (b_offset (boot_ram ph))) prog n (boot_machine ph tape) /\
    test_vm true ph n = Some tv0 /\ T.read_input_tape true tv0 tape = Some tv /\ T.execute true tv = Some tv' /\
    encrypted_vm 6 true true false ph tape n = Some ev /\ enc_execute 6 true es ev = Some ev' /\
    isa_run prog n (boot_machine ph tape) = Some m' /\ T.output_tape true tv' = Some out /\ out = output_of ph m' /\
    enc_output true ev' = Some out' /\ out <> out'.
Proof.
  exists (ex_elf 16 8), (ex_ph 16 8), (ex_prog 16), ex_tape, 4%nat, (repeat (PropEnc.ex_env 2) 4).
  do 8 eexists. split; [apply ex_elf_ok; unfold is_u32; lia|]. split; [vm_compute; reflexivity|].
  split; [vm_compute; reflexivity|]. destruct (ex_prog_ok 16 ltac:(lia)) as (X1 & X2 & X3). split; [exact X1|]. split; [exact X2|]. split; [exact X3|]. clear X1 X2 X3.
  split; [repeat constructor; unfold is_byte; lia|]. split; [vm_compute; intuition congruence|]. split; [vm_compute; intuition congruence|].
  split; [vm_compute; discriminate|]. split; [reflexivity|]. split; [apply PropEnc.ex_envs|].
  split; [PropTest.steps|]. split; [vm_compute; reflexivity|]. split; [vm_compute; reflexivity|].
  split; [vm_compute; reflexivity|]. split; [vm_compute; reflexivity|]. split; [vm_compute; reflexivity|].
  split; [reflexivity|]. split; [vm_compute; reflexivity|]. split; [vm_compute; reflexivity|]. split; [vm_compute; reflexivity|].
  discriminate.
Qed.
Print Assumptions C37_other_base_refuted.
(** Alignment of loads matters, too: a program that reads the second byte of
    its input with LBU and stores it gives the second byte in the reference VM
    (and on the RISC-V machine), the first byte in the encrypted VM.  All
    accesses are naturally aligned and in RAM, RAM is at 2^18, and both VMs run
    to the end. *)
Definition byte_prog : list Z :=
  asm [LUI 1 0x40; LOAD LBU 2 1 1; STORE SW 1 2 4; JAL 0 0; OPI ADDI 0 0 0; OPI ADDI 0 0 0].
Definition naturally_aligned (off : Z) (i : instr) (m : mach) : Prop :=
  match i with
  | LOAD k _ rs1 o => let a := ea m rs1 o in off <= a /\ a + ld_size k <= off + 4096 /\ a mod ld_size k = 0
  | _ => supported off i m
  end.
Theorem C37_byte_load_refuted :
  exists e ph prog tape n es tv0 tv tv' ev ev' m' out out',
    elf_ok e /\ from_elf true e = Some ph /\ b_data (boot_rom ph) = image prog /\ Forall word prog /\
    Forall legal_word prog /\ prog <> [] /\
    Forall is_byte tape /\ input_fits ph tape /\ output_fits ph /\ b_offset (boot_ram ph) = 2 ^ 18 /\
    length es = n /\ Forall EncSpec.env_ok es /\
    along (naturally_aligned (b_offset (boot_ram ph))) prog n (boot_machine ph tape) /\
    test_vm true ph n = Some tv0 /\ T.read_input_tape true tv0 tape = Some tv /\ T.execute true tv = Some tv' /\
    encrypted_vm 6 true true false ph tape n = Some ev /\ enc_execute 6 true es ev = Some ev' /\
    isa_run prog n (boot_machine ph tape) = Some m' /\ T.output_tape true tv' = Some out /\ out = output_of ph m' /\
    enc_output true ev' = Some out' /\ out <> out'.
Proof.
  exists (elf_with byte_prog 0 8), (ph_of (elf_with byte_prog 0 8)), byte_prog, ex_tape, 4%nat, (repeat (PropEnc.ex_env 2) 4).
  do 8 eexists. split; [apply elf_with_ok; unfold is_u32; lia|]. split; [vm_compute; reflexivity|].
  split; [vm_compute; reflexivity|].
  assert (L : Forall legal [LUI 1 0x40; LOAD LBU 2 1 1; STORE SW 1 2 4; JAL 0 0; OPI ADDI 0 0 0; OPI ADDI 0 0 0]).
  { repeat apply Forall_cons; try apply Forall_nil; cbn [legal]; unfold reg; repeat split; try lia; reflexivity. }
  split; [apply RunFacts.asm_words; exact L|].
  split; [unfold byte_prog, asm; apply Forall_map; eapply Forall_impl; [|exact L]; intros i Hi; exists i; auto|]. split; [discriminate|]. clear L.
  split; [repeat constructor; unfold is_byte; lia|]. split; [vm_compute; intuition congruence|]. split; [vm_compute; intuition congruence|].
  split; [vm_compute; reflexivity|]. split; [reflexivity|]. split; [apply PropEnc.ex_envs|].
  split; [PropTest.steps|]. split; [vm_compute; reflexivity|]. split; [vm_compute; reflexivity|].
  split; [vm_compute; reflexivity|]. split; [vm_compute; reflexivity|]. split; [vm_compute; reflexivity|].
  split; [reflexivity|]. split; [vm_compute; reflexivity|]. split; [vm_compute; reflexivity|]. split; [vm_compute; reflexivity|].
  discriminate.
Qed.
Print Assumptions C37_byte_load_refuted.
(** the hypotheses of [C37_same_output] hold of the example at 2^18, for a run of ten cycles *)
Example C37_case :
  from_elf true (ex_elf 0 8) = Some (ex_ph 0 8) /\ b_data (boot_rom (ex_ph 0 8)) = image (ex_prog 0) /\ Forall word (ex_prog 0) /\
  Forall (fun w => legal_word w \/ DecodeSpec.lenient w) (ex_prog 0) /\ ex_prog 0 <> [] /\
  input_fits (ex_ph 0 8) ex_tape /\ output_fits (ex_ph 0 8) /\ (4096 | b_offset (boot_ram (ex_ph 0 8)) - 2 ^ 18) /\
  along (supported (b_offset (boot_ram (ex_ph 0 8)))) (ex_prog 0) 10 (boot_machine (ex_ph 0 8) ex_tape) /\
  option_map (output_of (ex_ph 0 8)) (isa_run (ex_prog 0) 10 (boot_machine (ex_ph 0 8) ex_tape)) = Some [42; 1; 0; 0].
Proof.
  split; [vm_compute; reflexivity|]. split; [vm_compute; reflexivity|].
  destruct (ex_prog_ok 0 ltac:(lia)) as (X1 & X2 & X3). split; [exact X1|]. split; [exact X2|]. split; [exact X3|]. clear X1 X2 X3.
  split; [vm_compute; intuition congruence|]. split; [vm_compute; intuition congruence|]. split; [exists 0; vm_compute; reflexivity|].
  split; [PropTest.steps|]. vm_compute. reflexivity.
Qed.
