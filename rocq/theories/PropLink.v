(** * The linker script and the loader together (C52, C53) *)
Require Import ZArith List Bool Lia.
Require Import Verif.Word Verif.Isa Verif.RunSpec Verif.TestRunSpec Verif.EncVM Verif.Loader Verif.LoadSpec Verif.LoadFacts Verif.Link Verif.LinkFacts.
Require Verif.EncSpec Verif.PropEnc Verif.PropLoad.
Import ListNotations.
Open Scope Z_scope.

(** ** C52: which images load *)
(** Loading succeeds exactly when the code segment is whole, at address zero and
    inside the file, every whole data segment lies in the 4096 bytes from the
    first one and inside the file, and both tape sections exist; overflow checks
    make no difference. *)
Definition data_base (e : elf) : Z := match PropLoad.data_segments e with [] => 0 | h :: _ => p_vaddr h end.
Definition inside_file (e : elf) (h : phdr) : Prop := p_offset h + p_filesz h <= Z.of_nat (length (e_bytes e)).
Theorem C52_loads_exactly :
  forall chk e, elf_ok e ->
    ((exists ph, from_elf chk e = Some ph) <->
     (exists h, find (fun h => p_flags h =? 5) (filter (fun h => p_type h =? 1) (e_phdrs e)) = Some h /\
        whole h /\ p_vaddr h = 0 /\ inside_file e h) /\
     (forall h, data_segment e h -> whole h -> 0 < p_memsz h ->
        data_base e <= p_vaddr h /\ p_vaddr h + p_memsz h <= data_base e + 4096 /\ inside_file e h) /\
     e_inpdata e <> None /\ e_outdata e <> None).
Proof.
  intros chk e HE. rewrite (loads_iff chk e HE). unfold data_base. rewrite PropLoad.data_segments_eq. fold (ram_base e).
  unfold whole, inside_file. split; intros (A & B & C); (split; [exact A|]); (split; [|exact C]).
  - intros h Hh HW HM. apply data_hdrs_in in Hh. specialize (B h Hh). unfold copied, seg_ok, RAM_SIZE in B. rewrite HW, Z.eqb_refl in *.
    destruct (Z.ltb_spec 0 (p_memsz h)); [|lia]. specialize (B eq_refl). lia.
  - intros h Hh Hc. apply data_hdrs_in in Hh. unfold copied in Hc. apply andb_true_iff in Hc as [C1 C2]. apply Z.ltb_lt in C1. apply Z.eqb_eq in C2.
    specialize (B h Hh C2 C1). unfold seg_ok, RAM_SIZE. lia.
Qed.
Print Assumptions C52_loads_exactly.
Theorem C52_profile_independent : forall e, elf_ok e -> from_elf true e = from_elf false e.
Proof. exact from_elf_chk. Qed.
Print Assumptions C52_profile_independent.
(** both sides occur: the segment of the example may have 8 bytes in RAM, but not 4097 *)
Example C52_case : (exists ph, from_elf true (PropLoad.ex_elf 0 8) = Some ph) /\
  (let e := {| e_bytes := repeat 0 5000; e_phdrs := [Phdr 1 5 0 0 24 24; Phdr 1 6 24 (2 ^ 18) 4097 4097];
               e_inpdata := e_inpdata (PropLoad.ex_elf 0 8); e_outdata := e_outdata (PropLoad.ex_elf 0 8) |} in
   from_elf true e = None /\ from_elf false e = None).
Proof. split; [eexists; vm_compute; reflexivity|split; vm_compute; reflexivity]. Qed.

(** ** C53: what the linker script's images become *)
(** the bytes [bs] are in RAM from address [a] on *)
Definition holds (ph : phantom) (a : Z) (bs : list Z) : Prop :=
  forall i, (i < length bs)%nat -> ram_at ph (a + Z.of_nat i) = nth_error bs i.
Definition zeros (bs : list Z) : Prop := Forall (fun b => b = 0) bs.
(** where the sections are: [l] lists (address, size); in order, without overlap,
    on multiples of four, from 2^18 up, in 4096 bytes *)
Fixpoint placed (from : Z) (l : list (Z * Z)) : Prop :=
  match l with
  | [] => from <= 2 ^ 18 + 4096
  | (a, n) :: t => from <= a /\ a mod 4 = 0 /\ 0 <= n /\ placed (a + n) t
  end.
(** Every program that links loads; code, input section and constants are where
    the linker put them; the rest is zero.  Initial values of .outdata and .data
    arrive exactly when there is no .bss or they are zero anyway. *)
Theorem C53_linked_image :
  forall chk o e, objects_ok o -> link o = Some e ->
    elf_ok e /\ exists ph a_out a_ro a_data a_bss,
      from_elf chk e = Some ph /\ b_data (boot_rom ph) = image (o_text o) /\ b_offset (boot_ram ph) = 2 ^ 18 /\
      placed (2 ^ 18) [(2 ^ 18, len (o_inp o)); (a_out, len (o_out o)); (a_ro, len (o_ro o)); (a_data, len (o_data o)); (a_bss, o_bss o)] /\
      inp_info ph = {| T.start_addr := 2 ^ 18; T.io_size := len (o_inp o) |} /\
      out_info ph = {| T.start_addr := a_out; T.io_size := len (o_out o) |} /\
      holds ph (2 ^ 18) (o_inp o) /\ holds ph a_ro (o_ro o) /\
      (holds ph a_out (o_out o) <-> o_bss o = 0 \/ o_ro o <> [] \/ zeros (o_out o)) /\
      (holds ph a_data (o_data o) <-> o_bss o = 0 \/ zeros (o_data o)) /\
      (forall a, 2 ^ 18 <= a < 2 ^ 18 + 4096 ->
         Forall (fun s => ~ (fst s <= a < fst s + len (snd s))) [(2 ^ 18, o_inp o); (a_out, o_out o); (a_ro, o_ro o); (a_data, o_data o)] ->
         ram_at ph a = Some 0).
Proof.
  intros chk o e HO HL. split; [exact (linked_ok o e HO HL)|]. destruct (linked_loads chk o e HO HL) as (ph & HP).
  exists ph, (out_at o), (ro_at o), (data_at o), (bss_at o). split; [exact HP|].
  split; [apply (linked_rom chk o e HO HL ph HP)|]. split; [apply (linked_offset chk o e HO HL ph HP)|].
  destruct (facts o e HO HL) as (A0 & A1 & A2 & A3 & A4 & A5 & A6 & A7 & A8 & A9 & A10 & L1 & L2 & L3 & L4).
  destruct (addresses o A8) as (_ & (k1 & K1) & (k2 & K2) & (k3 & K3) & (k4 & K4) & _).
  assert (M : forall x k, x = 4 * k -> x mod 4 = 0). { intros x k ->. rewrite Z.mul_comm. apply Z.mod_mul. lia. }
  split.
  { cbn [placed]. pose proof (M _ _ K1). pose proof (M _ _ K2). pose proof (M _ _ K3). pose proof (M _ _ K4).
    repeat match goal with |- _ /\ _ => split end; auto; try lia. }
  split; [apply (linked_infos chk o e HO HL ph HP)|]. split; [apply (linked_infos chk o e HO HL ph HP)|].
  assert (Z0 : forall a bs, (forall i, (i < length bs)%nat -> ram_at ph (a + Z.of_nat i) = Some 0) -> (holds ph a bs <-> zeros bs)).
  { intros a bs H. unfold holds, zeros. split.
    - intros G. apply Forall_nth_iff. intros i x Hx. assert (Li : (i < length bs)%nat) by (apply nth_error_Some; congruence).
      pose proof (H i Li) as H1. rewrite (G i Li) in H1. congruence.
    - intros F i Li. rewrite H by exact Li. destruct (nth_error bs i) as [x|] eqn:E; [|apply nth_error_None in E; lia].
      rewrite (proj1 (Forall_nth_iff _ _ _) F i x E). reflexivity. }
  split. { intros i Hi. rewrite (inp_byte chk o e HO HL ph HP) by (unfold len; lia). f_equal. lia. }
  split. { intros i Hi. rewrite (ro_byte chk o e HO HL ph HP) by (unfold len; lia). f_equal. lia. }
  split.
  { destruct (Z.eq_dec (o_bss o) 0) as [Hb|Hb].
    - split; [auto|]. intros _ i Hi. destruct (out_byte chk o e HO HL ph HP (out_at o + Z.of_nat i)) as (B & _); [unfold len; lia|].
      rewrite B by auto. f_equal. lia.
    - destruct (o_ro o) as [|r0 ro] eqn:ER.
      + rewrite Z0.
        * split; [auto|]. intros [?|[?|?]]; [contradiction|congruence|assumption].
        * intros i Hi. destruct (out_byte chk o e HO HL ph HP (out_at o + Z.of_nat i)) as (_ & B); [unfold len; lia|]. apply B. auto.
      + split; [intros _; right; left; discriminate|]. intros _ i Hi.
        destruct (out_byte chk o e HO HL ph HP (out_at o + Z.of_nat i)) as (B & _); [unfold len; lia|].
        rewrite B by (right; rewrite ER; discriminate). f_equal. lia. }
  split.
  { destruct (Z.eq_dec (o_bss o) 0) as [Hb|Hb].
    - split; [auto|]. intros _ i Hi. destruct (data_byte chk o e HO HL ph HP (data_at o + Z.of_nat i)) as (B & _); [unfold len; lia|].
      rewrite B by auto. f_equal. lia.
    - rewrite Z0.
      + split; [auto|]. intros [?|?]; [contradiction|assumption].
      + intros i Hi. destruct (data_byte chk o e HO HL ph HP (data_at o + Z.of_nat i)) as (_ & B); [unfold len; lia|]. apply B. auto. }
  intros a Ha F. inversion_clear F as [|? ? F1 F']. inversion_clear F' as [|? ? F2 F'']. inversion_clear F'' as [|? ? F3 F''']. inversion_clear F''' as [|? ? F4 _].
  cbn [fst snd] in *. apply (other_byte chk o e HO HL ph HP); auto.
Qed.
Print Assumptions C53_linked_image.
(** Full statement: every initial value arrives.  False: one word of .data and
    one of .bss (a static counter that starts at 5, and a buffer). *)
Definition small (data : list Z) (bss : Z) : objects :=
  Objects (asm [JAL 0 0]) [1; 2; 3] [0; 0; 0; 0] [77; 78] data bss.
Theorem C53_data_refuted :
  exists o e ph, objects_ok o /\ link o = Some e /\ from_elf true e = Some ph /\ o_data o = [5; 0; 0; 0] /\ ram_at ph (data_at o) = Some 0.
Proof.
  exists (small [5; 0; 0; 0] 4). do 2 eexists. split.
  - unfold objects_ok, small. cbn [o_text o_inp o_out o_ro o_data o_bss].
    repeat match goal with |- _ /\ _ => split end; try discriminate; try lia; repeat apply Forall_cons; try apply Forall_nil; unfold is_byte, word; try lia.
    vm_compute. split; [discriminate|reflexivity].
  - repeat match goal with |- _ /\ _ => split end; [vm_compute; reflexivity..|reflexivity|vm_compute; reflexivity].
Qed.
Print Assumptions C53_data_refuted.
Example C53_case : objects_ok (small [5; 6] 0) /\ exists e ph, link (small [5; 6] 0) = Some e /\ from_elf true e = Some ph /\
  map (ram_at ph) (map Z.of_nat (seq (Z.to_nat (2 ^ 18)) 16)) =
  map Some [1; 2; 3; 0;  0; 0; 0; 0;  77; 78; 0; 0;  5; 6; 0; 0].
Proof.
  split.
  - unfold objects_ok, small. cbn [o_text o_inp o_out o_ro o_data o_bss].
    repeat match goal with |- _ /\ _ => split end; try discriminate; try lia; repeat apply Forall_cons; try apply Forall_nil; unfold is_byte, word; try lia.
    vm_compute. split; [discriminate|reflexivity].
  - do 2 eexists. split; [vm_compute; reflexivity|]. split; [vm_compute; reflexivity|].
    unfold small. vm_compute. reflexivity.
Qed.

(** For programs linked with the script, the placement hypotheses of C37 hold by
    themselves: both VMs start for every tape of the right length and give the
    RISC-V output, as long as the run stays in the supported set. *)
Theorem C53_linked_same_output :
  forall log dbg chk debug o e tape n es,
    objects_ok o -> link o = Some e -> o_text o <> [] -> Forall (fun w => legal_word w \/ DecodeSpec.lenient w) (o_text o) ->
    Forall is_byte tape -> length tape = length (o_inp o) ->
    length es = n -> Forall EncSpec.env_ok es -> Z.of_nat n < 2 ^ 32 ->
    exists ph, from_elf chk e = Some ph /\
      (along (supported (2 ^ 18)) (o_text o) n (boot_machine ph tape) ->
       exists tv0 tv tv' ev ev' m',
         test_vm chk ph n = Some tv0 /\ T.read_input_tape chk tv0 tape = Some tv /\ T.execute chk tv = Some tv' /\
         encrypted_vm log dbg chk debug ph tape n = Some ev /\ enc_execute log chk es ev = Some ev' /\
         isa_run (o_text o) n (boot_machine ph tape) = Some m' /\
         T.output_tape chk tv' = Some (output_of ph m') /\ enc_output chk ev' = Some (output_of ph m')).
Proof.
  intros log dbg chk debug o e tape n es HO HL HN HA HB Ht Hn Henv Hc.
  destruct (linked_loads chk o e HO HL) as (ph & HP). exists ph. split; [exact HP|]. intros Ha.
  pose proof (linked_offset chk o e HO HL ph HP) as OFF. destruct (linked_infos chk o e HO HL ph HP) as (I1 & I2).
  destruct (facts o e HO HL) as (A0 & A1 & A2 & A3 & A4 & A5 & A6 & A7 & A8 & A9 & A10 & L1 & L2 & L3 & L4).
  destruct HO as (HW & HO').
  apply PropLoad.C37_same_output with (e := e); auto.
  - exact (linked_ok o e (conj HW HO') HL).
  - apply (linked_rom chk o e (conj HW HO') HL ph HP).
  - unfold input_fits, RAM_SIZE. rewrite OFF, I1. cbn [T.start_addr T.io_size]. unfold len in *. lia.
  - unfold output_fits, RAM_SIZE. rewrite OFF, I2. cbn [T.start_addr T.io_size]. lia.
  - rewrite OFF. lia.
  - rewrite OFF. exists 0. lia.
  - rewrite OFF. exact Ha.
Qed.
Print Assumptions C53_linked_same_output.

(** The global pointer: a signed 12-bit offset from it reaches exactly the 4096
    bytes from the start of .data on, so all of .data, .bss, heap and stack. *)
Theorem C53_global_pointer :
  forall o e, objects_ok o -> link o = Some e ->
    (forall a, - 2 ^ 11 <= a - global_pointer o < 2 ^ 11 <-> data_at o <= a < data_at o + 4096) /\
    (forall a, data_at o <= a < stack_start -> - 2 ^ 11 <= a - global_pointer o < 2 ^ 11) /\
    data_at o <= bss_at o <= end_at o /\ end_at o <= stack_start.
Proof.
  intros o e HO HL. destruct (facts o e HO HL) as (A0 & A1 & A2 & A3 & A4 & A5 & A6 & A7 & A8 & A9 & A10 & L1 & L2 & L3 & L4).
  unfold global_pointer, stack_start, RAM_ORIGIN, RAM_LEN in *. split; [|split; [|split]]; try lia; intros a; lia.
Qed.
Print Assumptions C53_global_pointer.
(** Which programs fit: 2^16 words of code, and the other sections, each rounded up to
    a multiple of four, together in 4096 bytes. *)
Definition rounded (x : Z) : Z := x + (- x) mod 4.
Theorem C53_fits :
  forall o, objects_ok o ->
    ((exists e, link o = Some e) <->
     Z.of_nat (length (o_text o)) <= 65536 /\
     rounded (len (o_inp o)) + rounded (len (o_out o)) + rounded (len (o_ro o)) + rounded (len (o_data o)) + o_bss o <= 4096).
Proof.
  intros o HO.
  assert (R : forall k x, align4 (4 * k + x) = 4 * k + rounded x).
  { intros k x. unfold align4, rounded. replace (4 * k + x + 3) with (x + 3 + k * 4) by ring. rewrite Z.div_add by lia.
    pose proof (Z.div_mod (x + 3) 4 ltac:(lia)). pose proof (Z.mod_pos_bound (x + 3) 4 ltac:(lia)).
    assert ((- x) mod 4 = 3 - (x + 3) mod 4); [|lia].
    symmetry. apply (Z.mod_unique_pos _ _ (- ((x + 3) / 4))); lia. }
  assert (Q : forall x, exists k, rounded x = 4 * k).
  { intro x. exists ((x + 3) / 4). pose proof (R 0 x) as E. unfold align4 in E. replace (4 * 0 + x) with x in E by ring. lia. }
  assert (E : end_at o = 2 ^ 18 + (rounded (len (o_inp o)) + rounded (len (o_out o)) + rounded (len (o_ro o)) + rounded (len (o_data o)) + o_bss o)).
  { destruct (Q (len (o_inp o))) as [k1 K1]. destruct (Q (len (o_out o))) as [k2 K2]. destruct (Q (len (o_ro o))) as [k3 K3].
    assert (E1 : inp_at o = 4 * 65536) by reflexivity.
    assert (E2 : out_at o = 4 * (65536 + k1)) by (unfold out_at; rewrite E1, R; lia).
    assert (E3 : ro_at o = 4 * (65536 + k1 + k2)) by (unfold ro_at; rewrite E2, R; lia).
    assert (E4 : ro_end o = 4 * (65536 + k1 + k2 + k3)) by (unfold ro_end; rewrite E3, R; lia).
    assert (E5 : data_at o = 4 * (65536 + k1 + k2 + k3)).
    { unfold data_at. rewrite E4. rewrite <- (Z.add_0_r (4 * (65536 + k1 + k2 + k3))) at 1. rewrite R. change (rounded 0) with 0. lia. }
    unfold end_at, bss_at. rewrite E5, R. lia. }
  assert (I : len (image (o_text o)) = 4 * Z.of_nat (length (o_text o))).
  { unfold len. rewrite RunFacts.image_ram_bytes, RunFacts.length_ram_bytes. lia. }
  unfold link. rewrite E, I. change (RAM_ORIGIN + RAM_LEN) with (2 ^ 18 + 4096). change FLASH_LEN with (4 * 65536).
  destruct (Z.leb_spec (4 * Z.of_nat (length (o_text o))) (4 * 65536)), (Z.leb_spec (2 ^ 18 + (rounded (len (o_inp o)) + rounded (len (o_out o)) + rounded (len (o_ro o)) + rounded (len (o_data o)) + o_bss o)) (2 ^ 18 + 4096)); cbn [andb];
    (split; [intros [e X]; try discriminate X; split; lia|intros [X1 X2]; try lia; eexists; reflexivity]).
Qed.
Print Assumptions C53_fits.
Example C53_fits_case : (exists e, link (small [5; 6] 4) = Some e) /\ link (small [5; 6] 4100) = None.
Proof. split; [eexists|]; vm_compute; reflexivity. Qed.
Example C53_gp_case : global_pointer (small [5; 6] 4) = 2 ^ 18 + 12 + 2048 /\ data_at (small [5; 6] 4) = 2 ^ 18 + 12.
Proof. split; vm_compute; reflexivity. Qed.
