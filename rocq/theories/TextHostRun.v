(** * The translated host side, from the image to the two output tapes (proofs) *)
Require Import ZArith List Bool Lia.
From Verif Require Import Rust RustIter RustStr RustLib RustEng RustHost TextLib TextEng TextMemFacts TextPrep TextMemClient PropTextMem TextPlanes TextShadow TextCycle TextClient TextIdeal.
Require Verif.Word Verif.ListFacts Verif.Codec Verif.DebugVM Verif.Glwe Verif.EncMem Verif.MemSpec Verif.Scratch Verif.CycleScratch
  Verif.EncVM Verif.EncSpec Verif.EncCycle Verif.EncTrack Verif.EncLoad Verif.EncRun Verif.ExactSpec Verif.ShadowSpec Verif.DecodeSpec Verif.PropExact Verif.PropShadow Verif.PropText
  Verif.TestVM Verif.TestRunSpec Verif.Loader Verif.LoadSpec Verif.LoadFacts Verif.LoadRun Verif.Host Verif.HostSpec Verif.PropHost
  Verif.TextTest Verif.TextTestFacts Verif.TextTestExec Verif.TextHost Verif.TextHostFacts Verif.PropTextEnc.
Module PE := Verif.PropTextEnc.
Module HF := Verif.TextHostFacts.
Module H := Verif.TextHost.
Module Ld := Verif.Loader.
Module LR := Verif.LoadRun.
Module X := Verif.TextTest.
Module XF := Verif.TextTestFacts.
Module XE := Verif.TextTestExec.
Module TV := Verif.TestVM.
Import ListNotations.
Open Scope Z_scope.
Local Notation chk := overflow_checks.

(** the names of the settings *)
Definition var_verbose : list Z := [80; 72; 65; 78; 84; 79; 77; 95; 86; 69; 82; 66; 79; 83; 69; 95; 84; 73; 77; 73; 78; 71; 83].
Definition var_threads : list Z := [80; 72; 65; 78; 84; 79; 77; 95; 84; 72; 82; 69; 65; 68; 83].
Definition var_debug : list Z := [80; 72; 65; 78; 84; 79; 77; 95; 68; 69; 66; 85; 71].

Section Run.
Context {GL KL SL Src : Type}.
Variables (log : nat) (sp : space GL KL SL) (garbage : Z -> nat -> list Z) (garbage_i64 : Z -> nat -> int I64)
  (gl_n : GL -> Z) (enc dec : Z -> list Z -> list Z) (next : Src -> Src)
  (sw : word_space GL KL SL) (shuffle : list (nat * list Z) -> list (nat * list Z)).
Notation A := (G.Ideal log).
Notation L := (lib A sp garbage garbage_i64 gl_n enc dec next).
Notation N := (eng A sp garbage garbage_i64 gl_n enc dec next sw (ideal_bdd log) G.decrypt_word Bdd.pack_bits shuffle).
Variables (p : profile) (l : GL) (sl : SL) (kl : KL) (fuel : nat) (pm : layouts GL SL).
Notation interp := (interp A sp garbage garbage_i64 gl_n enc dec next l sl).
Notation text_cycles := (PE.text_cycles A sp garbage garbage_i64 gl_n enc dec next sw (ideal_bdd log) G.decrypt_word Bdd.pack_bits shuffle p kl fuel).
Notation client_ok := (PE.client_ok log sp gl_n enc dec l sl pm).
Notation y := (cycle_costs_at sp sw l sl kl).
Variable (Hs : host L N).

(** ** settings *)
Definition debug : bool := Verif.Host.flag_of (HF.text_of (env_var Hs (str var_debug))).
Definition verbose : bool := Verif.Host.flag_of (HF.text_of (env_var Hs (str var_verbose))).
Definition threads : Z := Verif.Host.number_of (val (num_cpus_get_physical Hs)) (HF.text_of (env_var Hs (str var_threads))).
(** the bytes of the scratch space of [execute] *)
Definition work : Z := (2 ^ 24 * threads) mod 2 ^ 64.

(** a scratch space of [n] bytes is given *)
Definition gives (n : Z) : Prop :=
  exists s, ScratchOwned_alloc Hs (Int n) = Some s /\ ScratchOwned_borrow Hs s = n.
(** the keys: nothing panics while they are made, and the prepared one has the
    layout [kl] *)
Definition keys_ok : Prop :=
  (forall s f x, GLWESecret_fill_ternary_prob Hs s f x <> None) /\ (forall s n x, LWESecret_fill_binary_block Hs s n x <> None) /\
  (forall k m s, Secret_prepare Hs k m s <> None) /\ (forall q s g a b, VMKeys_encrypt_sk Hs q s g a b <> None) /\
  (forall k m v b, Keys_prepare Hs k m v b = Some kl).

Definition vm_of (ev : Ld.enc_vm) : H.EncryptedVM L N :=
  H.mk_EncryptedVM (L := L) (E := N) pm tt kl (interp verbose (Z.to_nat threads) (buf0 A) (Ld.ev_vm ev)) (XF.out_of (Ld.ev_out ev)) (Int (Ld.ev_offset ev))
    (Int (Z.of_nat (Ld.ev_max ev))) (Ld.ev_debug ev).

Lemma parser_loop : forall ws q,
  for_each ws (fun i parser => t10 <- TextInstr.InstructionsParser_add p parser i ;; Some t10) q = PropText.adds p q ws.
Proof.
  induction ws as [|w ws IH]; intro q; [reflexivity|]. cbn [for_each PropText.adds].
  destruct (TextInstr.InstructionsParser_add p q w); [apply IH|reflexivity].
Qed.

Section Image.
Variables (e : Ld.elf) (ph : Ld.phantom) (bytes tape : list Z) (n : nat).
Hypothesis (HE : Verif.LoadSpec.elf_ok e) (HP : Ld.from_elf (chk p) e = Some ph) (HB : Forall TestRunSpec.is_byte tape)
  (HT : 0 <= threads) (HZ : 0 < Ld.b_size (Ld.boot_rom ph)).

Lemma chunks_text : forall {B} (g : int U32 -> option B) (h : Z -> B) bs, (forall w, g (Int w) = Some (h w)) -> Forall XF.u8_val bs ->
  (t <- chunks_exact (map (@Int U8) bs) (lit 4) ;; RustIter.collect t (fun four => 
     w <- for_range (@lit USize 0) (lit 4) (fun i inst => t4 <- index four i ;; t5 <- mul p i (lit 8) ;;
       t6 <- shl p (cast U32 t4) t5 ;; t7 <- add p inst t6 ;; Some t7) (lit (t := U32) 0) ;; g w))
  = Some (map h (Ld.chunks4 bs)).
Proof.
  intros B g h bs G F. unfold chunks_exact. change (val (@lit USize 4) =? 0) with false. cbv iota beta. change (Z.to_nat (val (@lit USize 4))) with 4%nat.
  apply HF.words_text; [exact G|rewrite map_length; apply le_n|exact F].
Qed.

Lemma encrypted_text : client_ok (2 ^ 24) -> gives (2 ^ 24) -> keys_ok -> CryptographicParameters_new Hs = pm ->
  H.Phantom_encrypted_vm L N Hs p (HF.phantom_of bytes ph) (map Int tape) (Int (Z.of_nat n)) =
  option_map vm_of (Ld.encrypted_vm log (debug_assertions p) (chk p) debug ph tape n).
Proof.
  intros CO (s24 & G1 & G2) (K1 & K2 & K3 & K4 & K5) PM.
  destruct (LR.rom_facts (chk p) e ph HE HP) as (R1 & R2 & R3 & R4). destruct (LR.ram_facts (chk p) e ph HE HP) as (M1 & M2 & M3 & M4 & (I1 & I2) & O).
  unfold Verif.LoadSpec.is_u32 in *. change (2 ^ 32) with 4294967296 in *.
  unfold H.Phantom_encrypted_vm.
  cbn [HF.phantom_of H.Phantom_boot_rom H.Phantom_boot_ram H.Phantom_input_info H.Phantom_output_info HF.boot_text XE.boot_of X.BootMemory_data X.BootMemory_offset X.BootMemory_size].
  unfold Ld.encrypted_vm.
  assert (RL : rem (len (map (@Int U8) (Ld.b_data (Ld.boot_rom ph)))) (lit 4) = Some (Int (Z.of_nat (length (Ld.b_data (Ld.boot_rom ph))) mod 4))).
  { unfold len. rewrite map_length. apply XF.rem_lit; [reflexivity|lia|lia]. }
  rewrite RL. change (eq (@Int USize (Z.of_nat (length (Ld.b_data (Ld.boot_rom ph))) mod 4)) (lit 0)) with
    (Z.of_nat (length (Ld.b_data (Ld.boot_rom ph))) mod 4 =? 0).
  destruct (Z.of_nat (length (Ld.b_data (Ld.boot_rom ph))) mod 4 =? 0) eqn:M4'; [|reflexivity].
  change (TextInstr.InstructionsParser_new p) with (Some (F.parser_of Verif.Codec.parser_new)). cbv iota beta zeta.
  lazymatch goal with |- match chunks_exact ?a ?b with _ => _ end = _ => change (chunks_exact a b) with (Some (exact_pieces (length a) 4 a)) end.
  cbv iota beta.
  lazymatch goal with |- match RustIter.collect ?a ?f with _ => _ end = _ =>
    replace (RustIter.collect a f) with (Some (map F.ins (Ld.chunks4 (Ld.b_data (Ld.boot_rom ph)))))
      by (symmetry; apply (HF.words_text p (fun w => t8 <- TextInstr.Instruction_new p w ;; Some t8) F.ins); [reflexivity|rewrite map_length; apply le_n|exact R4]) end.
  cbv iota beta. rewrite parser_loop, PropText.adds_eq.
  pose proof (fun ram xa xe xa' xe' => PE.C99_load log sp garbage garbage_i64 gl_n enc dec next sw shuffle p l sl pm debug (Ld.chunks4 (Ld.b_data (Ld.boot_rom ph))) ram
    (Z.to_nat (Z.shiftr (Ld.b_size (Ld.boot_rom ph)) 2)) (Z.to_nat (Z.shiftr (Ld.b_size (Ld.boot_ram ph)) 2)) (Z.to_nat threads) verbose xa xe xa' xe' (2 ^ 24) CO) as LD.
  unfold PE.text_load in LD.
  change (TextInstr.InstructionsParser_new p) with (Some (F.parser_of Verif.Codec.parser_new)) in LD. cbv iota beta in LD.
  rewrite PropText.adds_eq in LD.
  destruct (Verif.Codec.parser_add_all (debug_assertions p) Verif.Codec.parser_new (Ld.chunks4 (Ld.b_data (Ld.boot_rom ph)))) as [q|]; [cbn [option_map] in *|reflexivity].
  cbv iota beta in *.
  assert (LT : eq (len (map (@Int U8) tape)) (X.InputInfo_size (XF.in_of (Ld.inp_info ph))) = (Z.of_nat (length tape) =? TV.io_size (Ld.inp_info ph))).
  { unfold len. rewrite map_length. reflexivity. }
  rewrite LT. destruct (Z.of_nat (length tape) =? TV.io_size (Ld.inp_info ph)); [|reflexivity].
  etransitivity; [refine (HF.range_int p _ _ _ (fun t12 t14 => _) _ _ _); unfold XF.usize_val in *; lia|].
  destruct (Ld.range_from _ _ _ _) as [[lo hi]|]; [|reflexivity]. rewrite HF.copy_int.
  destruct (Ld.copy_into (Ld.b_data (Ld.boot_ram ph)) lo hi tape) as [ram|] eqn:CI; [cbn [option_map]|reflexivity].
  assert (RB : Forall XF.u8_val ram).
  { unfold Ld.copy_into in CI. destruct (_ && _ && _); [|discriminate CI]. injection CI as <-. rewrite <- (firstn_skipn (Z.to_nat lo) (Ld.b_data (Ld.boot_ram ph))) in M4.
    apply Forall_app in M4 as [M4 _]. apply Forall_app. split; [exact M4|]. apply Forall_app. split; [exact HB|].
    destruct (LR.ram_facts (chk p) e ph HE HP) as (_ & _ & _ & M4'' & _). rewrite <- (firstn_skipn (Z.to_nat hi) (Ld.b_data (Ld.boot_ram ph))) in M4''.
    apply Forall_app in M4'' as [_ M4'']. exact M4''. }
  lazymatch goal with |- match chunks_exact ?a ?b with _ => _ end = _ => change (chunks_exact a b) with (Some (exact_pieces (length a) 4 a)) end.
  cbv iota beta.
  lazymatch goal with |- match RustIter.collect ?a ?f with _ => _ end = _ =>
    replace (RustIter.collect a f) with (Some (map (@Int U32) (Ld.chunks4 ram)))
      by (symmetry; apply (HF.words_text p Some (@Int U32)); [reflexivity|rewrite map_length; apply le_n|exact RB]) end.
  cbv iota beta.
  destruct (HF.flag_text (env_var Hs (str var_verbose))) as (t22 & E22 & F22).
  destruct (HF.number_text (env_var Hs (str var_threads)) (num_cpus_get_physical Hs)) as (t25 & E25 & F25).
  destruct (HF.flag_text (env_var Hs (str var_debug))) as (t27 & E27 & F27).
  unfold var_verbose, var_threads, var_debug in *. rewrite E22, E25, E27. cbv iota beta. rewrite F22, F25, F27.
  change (Verif.Host.flag_of (HF.text_of (env_var Hs (str [80; 72; 65; 78; 84; 79; 77; 95; 68; 69; 66; 85; 71])))) with debug.
  change (Verif.Host.flag_of (HF.text_of (env_var Hs (str [80; 72; 65; 78; 84; 79; 77; 95; 86; 69; 82; 66; 79; 83; 69; 95; 84; 73; 77; 73; 78; 71; 83])))) with verbose.
  change (Verif.Host.number_of (val (num_cpus_get_physical Hs)) (HF.text_of (env_var Hs (str [80; 72; 65; 78; 84; 79; 77; 95; 84; 72; 82; 69; 65; 68; 83])))) with threads.
  rewrite PM.
  lazymatch goal with |- match ?x with _ => _ end = _ => change x with (Some (@Int USize (2 ^ 24))) end. cbv iota beta. rewrite G1. cbv iota beta.
  rewrite G2.
  lazymatch goal with |- match ?x with _ => _ end = _ => destruct x as [[sk1 x1]|] eqn:Q1; [|destruct (K1 _ _ _ Q1)] end. cbv iota beta.
  lazymatch goal with |- match ?x with _ => _ end = _ => destruct x as [[sk2 x2]|] eqn:Q2; [|destruct (K2 _ _ _ Q2)] end. cbv iota beta.
  specialize (LD (Ld.chunks4 ram)).
  assert (S2 : forall a, 0 <= a -> shr p (@Int USize a) (lit (t := I32) 2) = Some (zi (Z.to_nat (Z.shiftr a 2)))).
  { intros a HA. unfold lit. rewrite XF.shr_in by (cbn [bits]; lia). unfold zi. rewrite Z2Nat.id by (apply Z.shiftr_nonneg; exact HA). reflexivity. }
  rewrite (S2 (Ld.b_size (Ld.boot_rom ph))) by lia. rewrite (S2 (Ld.b_size (Ld.boot_ram ph))) by (rewrite M2; unfold Ld.RAM_SIZE; lia).
  cbv iota beta.
  assert (RW : (0 < Z.to_nat (Z.shiftr (Ld.b_size (Ld.boot_rom ph)) 2))%nat /\ Z.of_nat (Z.to_nat (Z.shiftr (Ld.b_size (Ld.boot_rom ph)) 2)) < 2 ^ 64).
  { apply Z.eqb_eq in M4'. rewrite <- R2 in M4'. rewrite Z.shiftr_div_pow2 by lia. change (2 ^ 2) with 4. change (2 ^ 64) with 18446744073709551616.
    pose proof (Z.div_mod (Ld.b_size (Ld.boot_rom ph)) 4 ltac:(lia)). lia. }
  rewrite M2 in *. change (Z.to_nat (Z.shiftr Ld.RAM_SIZE 2)) with 1024%nat in *.
  destruct RW as [RW1 RW2].
  pose proof (fun xa xe xa' xe' => LD xa xe xa' xe' RW1 RW2 ltac:(lia) ltac:(lia)) as LD'. clear LD.
  set (rw := Z.to_nat (Z.shiftr (Ld.b_size (Ld.boot_rom ph)) 2)) in *.
  set (NW := if debug then T.Interpreter_new_with_debug L N p pm (zi rw) (zi 1024) else T.Interpreter_new L N p pm (zi rw) (zi 1024)) in *.
  lazymatch goal with |- match ?x with _ => _ end = _ => replace x with NW end.
  2: { unfold NW. clear. destruct debug; [destruct (T.Interpreter_new_with_debug L N p pm (zi rw) (zi 1024))|destruct (T.Interpreter_new L N p pm (zi rw) (zi 1024))]; reflexivity. }
  cbv beta in LD'.
  set (ld := Verif.EncSpec.load log (debug_assertions p) debug rw 1024 q (Ld.chunks4 ram)) in *.
  destruct NW as [s0|].
  2: { specialize (LD' x2 x2 x2 x2). destruct ld; [discriminate LD'|reflexivity]. }
  cbv iota beta in *.
  lazymatch goal with |- match ?x with _ => _ end = _ => destruct x as [[]|] eqn:Q3; [|destruct (K3 _ _ _ Q3)] end. cbv iota beta.
  lazymatch goal with |- match ?x with _ => _ end = _ => set (IN := x) end.
  lazymatch type of IN with _ => idtac end.
  specialize (LD' (Source_new Hs (filled (lit 0) (lit 32))) (Source_new Hs (filled (lit 0) (lit 32)))).
  lazymatch type of LD' with forall a b, match ?x with _ => _ end = _ => change x with IN in LD' end.
  destruct IN as [[[s1 xa] xe]|].
  2: { specialize (LD' x2 x2). destruct ld; [discriminate LD'|reflexivity]. }
  cbv iota beta in *.
  lazymatch goal with |- match ?x with _ => _ end = _ => destruct x as [[[xa' xe'] vk]|] eqn:Q4; [|destruct (K4 _ _ _ _ _ Q4)] end. cbv iota beta.
  rewrite K5. cbv iota beta. specialize (LD' xa' xe').
  lazymatch goal with |- match ?x with _ => _ end = _ => set (RN := x) end.
  lazymatch type of LD' with match ?x with _ => _ end = _ => change x with RN in LD' end.
  destruct RN as [[[s2 xa2] xe2]|]; [|destruct ld; [discriminate LD'|reflexivity]].
  cbv iota beta in *.
  lazymatch goal with |- match ?x with _ => _ end = _ => set (RV := x) end.
  lazymatch type of LD' with match ?x with _ => _ end = _ => change x with RV in LD' end.
  destruct RV as [s3|]; [|destruct ld; [discriminate LD'|reflexivity]]. cbv iota beta in *.
  lazymatch goal with |- match ?x with _ => _ end = _ => replace x with (option_map (interp verbose (Z.to_nat threads) (buf0 A)) ld) end.
  2: { rewrite <- LD'. unfold zi. rewrite Z2Nat.id by exact HT. reflexivity. }
  destruct ld as [v|]; reflexivity.
Qed.
End Image.

(** ** [execute] *)
Definition with_interp (vm : H.EncryptedVM L N) (s : T.Interpreter L) : H.EncryptedVM L N := H.set_EncryptedVM_interpreter vm s.
Lemma cycles_loop : forall n k (vm : H.EncryptedVM L N), H.EncryptedVM_key_prepared vm = kl -> 
  for_each (counting n k) (fun (_ : int USize) self => if H.EncryptedVM_phantom_debug self
    then (t7 <- T.Interpreter_cycle_debug L N p fuel (H.EncryptedVM_interpreter self) (CryptographicParameters_module N (H.EncryptedVM_params self)) (H.EncryptedVM_key_prepared self) (H.EncryptedVM_sk_prepared self) work ;;
      Some (H.set_EncryptedVM_interpreter self t7))
    else (t10 <- T.Interpreter_cycle_fn L N p fuel (H.EncryptedVM_interpreter self) (CryptographicParameters_module N (H.EncryptedVM_params self)) (H.EncryptedVM_key_prepared self) work ;;
      Some (H.set_EncryptedVM_interpreter self t10))) vm
  = option_map (with_interp vm) (text_cycles (if H.EncryptedVM_phantom_debug vm then Some tt else None) n (H.EncryptedVM_interpreter vm) work).
Proof.
  induction n as [|n IH]; intros k vm K; [destruct vm; reflexivity|]. cbn [counting for_each PE.text_cycles].
  destruct vm as [q [] k0 i o f m d]. cbn in K. subst k0.
  cbn [H.EncryptedVM_phantom_debug H.EncryptedVM_interpreter H.EncryptedVM_params H.EncryptedVM_key_prepared H.EncryptedVM_sk_prepared].
  destruct d; cbn [PE.text_cycle].
  - lazymatch goal with |- match match ?x with _ => _ end with _ => _ end = _ => set (c := x) end.
    lazymatch goal with |- _ = option_map _ match ?x with _ => _ end => change x with c end.
    destruct c as [s|]; [|reflexivity]. cbv iota beta. rewrite IH by reflexivity. reflexivity.
  - lazymatch goal with |- match match ?x with _ => _ end with _ => _ end = _ => set (c := x) end.
    lazymatch goal with |- _ = option_map _ match ?x with _ => _ end => change x with c end.
    destruct c as [s|]; [|reflexivity]. cbv iota beta. rewrite IH by reflexivity. reflexivity.
Qed.
Lemma execute_text : forall ev, 0 <= threads -> (2 ^ 24 * threads < 2 ^ 64 \/ chk p = false -> gives work) ->
  H.EncryptedVM_execute L N Hs p fuel (vm_of ev) =
  if negb (chk p) || (2 ^ 24 * threads <? 2 ^ 64)
  then option_map (with_interp (vm_of ev)) (text_cycles (if Ld.ev_debug ev then Some tt else None) (Ld.ev_max ev) (H.EncryptedVM_interpreter (vm_of ev)) work)
  else None.
Proof.
  intros ev HT GW. unfold H.EncryptedVM_execute.
  lazymatch goal with |- match ?x with _ => _ end = _ => change x with (Some (@Int USize (2 ^ 24))) end. cbv iota beta.
  lazymatch goal with |- match ?x with _ => _ end = _ => change x with (Some (@Int USize (Z.of_nat (Z.to_nat threads)))) end. cbv iota beta.
  rewrite Z2Nat.id by exact HT. rewrite HF.mul64 by lia. change 18446744073709551616 with (2 ^ 64).
  assert (W : (if 2 ^ 24 * threads <? 2 ^ 64 then Some (@Int USize (2 ^ 24 * threads)) else if chk p then None else Some (Int ((2 ^ 24 * threads) mod 2 ^ 64)))
    = if negb (chk p) || (2 ^ 24 * threads <? 2 ^ 64) then Some (Int work) else None).
  { destruct (Z.ltb_spec (2 ^ 24 * threads) (2 ^ 64)).
    - rewrite orb_true_r. unfold work. rewrite Z.mod_small by lia. reflexivity.
    - destruct (chk p); reflexivity. }
  rewrite W. destruct (negb (chk p) || _) eqn:C; [|reflexivity].
  assert (G : gives work).
  { apply GW. apply orb_true_iff in C as [C|C]; [right; destruct (chk p); [discriminate C|reflexivity]|left; apply Z.ltb_lt, C]. }
  destruct G as (s & G1 & G2). cbv iota beta. rewrite G1. cbv iota beta zeta. rewrite G2.
  unfold for_range. change (Z.to_nat (val (H.EncryptedVM_max_cycles (vm_of ev)) - val (lit 0))) with (Z.to_nat (Z.of_nat (Ld.ev_max ev) - 0)).
  rewrite Z.sub_0_r, Nat2Z.id.
  match goal with |- match for_each ?a ?f ?v with _ => _ end = _ => etransitivity; [eapply (f_equal (fun r => match r with Some t => Some t | None => None end)); exact (cycles_loop (Ld.ev_max ev) 0 (vm_of ev) eq_refl)|] end.
  cbn [vm_of H.EncryptedVM_phantom_debug]. destruct (text_cycles _ _ _ _); reflexivity.
Qed.

(** ** [output_tape] *)
Lemma output_text : forall rb v s b vb th out off max dbg, client_ok (2 ^ 24) -> gives (2 ^ 24) -> Verif.EncSpec.shows log rb 10 v s ->
  Verif.LoadSpec.info_ok out -> Verif.LoadSpec.is_u32 off ->
  H.EncryptedVM_output_tape L N Hs p (H.mk_EncryptedVM (L := L) (E := N) pm tt kl (interp vb th b v) (XF.out_of out) (Int off) max dbg) =
  option_map (fun o => (H.mk_EncryptedVM (L := L) (E := N) pm tt kl (interp vb th b v) (XF.out_of out) (Int off) max dbg, map Int o))
    (Ld.enc_output (chk p) {| Ld.ev_vm := v; Ld.ev_out := out; Ld.ev_offset := off; Ld.ev_max := 0; Ld.ev_debug := dbg |}).
Proof.
  intros rb v s b vb th out off max dbg CO (s24 & G1 & G2) SH (I1 & I2) HO. unfold Verif.LoadSpec.is_u32 in *. change (2 ^ 32) with 4294967296 in *.
  unfold H.EncryptedVM_output_tape.
  lazymatch goal with |- match ?x with _ => _ end = _ => change x with (Some (@Int USize (2 ^ 24))) end. cbv iota beta. rewrite G1. cbv iota beta zeta.
  lazymatch goal with |- match ?x with _ => _ end = _ => change x with (Some (@Int USize 1024)) end. cbv iota beta.
  assert (FL : filled (lit (t := U32) 0) (@Int USize 1024) = map Int (repeat 0 (2 ^ 10)%nat)).
  { unfold filled. rewrite TextFacts.map_repeat. reflexivity. }
  rewrite FL, G2.
  cbn [H.EncryptedVM_interpreter H.EncryptedVM_params H.EncryptedVM_sk_prepared H.EncryptedVM_key_prepared H.EncryptedVM_output_info H.EncryptedVM_ram_offset].
  pose proof (PE.ram_dec_text log sp garbage garbage_i64 gl_n enc dec next p l sl fuel pm rb 10 v s (2 ^ 24) vb th b CO SH) as RD.
  pose proof SH as (_ & _ & _ & _ & _ & _ & _ & _ & S9 & S10 & S11 & _).
  pose proof (Verif.EncTrack.shows_ram log _ _ _ _ SH) as DR. rewrite DR in RD. cbn [option_map] in RD.
  lazymatch goal with |- match ?x with _ => _ end = _ => replace x with (Some (interp vb th b v, map (@Int U32) (Verif.EncSpec.x_ram s))) by (symmetry; exact RD) end.
  cbv iota beta. clear RD FL.
  assert (LM : mul p (len (map (@Int U32) (Verif.EncSpec.x_ram s))) (lit 4) = Some (Int 4096)).
  { unfold len. rewrite map_length, S10. reflexivity. }
  rewrite LM. cbv iota beta.
  lazymatch goal with |- match ?x with _ => _ end = _ => replace x with (Some ([] ++ map (@Int U8) (flat_map Ld.word_bytes (Verif.EncSpec.x_ram s)))) by (symmetry; exact (HF.bytes_loop p (Verif.EncSpec.x_ram s) [])) end.
  cbv iota beta. cbn [app].
  unfold Ld.enc_output. cbn [Ld.ev_vm Ld.ev_out Ld.ev_offset].
  unfold Verif.EncSpec.dec_ram in DR. rewrite S11 in DR. change (Z.to_nat (Z.shiftr Ld.RAM_SIZE 2)) with (2 ^ 10)%nat. rewrite DR.
  set (bytes := flat_map Ld.word_bytes (Verif.EncSpec.x_ram s)). cbv zeta.
  unfold for_range.
  cbn [H.set_EncryptedVM_interpreter H.EncryptedVM_interpreter H.EncryptedVM_params H.EncryptedVM_sk_prepared H.EncryptedVM_key_prepared H.EncryptedVM_output_info H.EncryptedVM_ram_offset
    H.EncryptedVM_max_cycles H.EncryptedVM_phantom_debug XF.out_of X.OutputInfo_size X.OutputInfo_start_addr].
  unfold lit at 1 2. cbn [val]. rewrite Z.sub_0_r.
  lazymatch goal with |- match for_each ?aa ?ff [] with _ => _ end = _ =>
    replace (for_each aa ff []) with (option_map (fun r => [] ++ map (@Int U8) r) (TV.mapM (fun i =>
      a <- Ld.uadd (chk p) (TV.start_addr out) (Z.of_nat i) ;; o <- TV.usub (chk p) a off ;; nth_error bytes (Z.to_nat (o mod Ld.RAM_SIZE)))
      (seq 0 (Z.to_nat (TV.io_size out))))) end.
  2: { symmetry. refine (XE.push_loop (@Int U8) _ _ _ 0%nat [] _). intros i acc HI.
    assert (UI : XF.usize_val (Z.of_nat i)) by (unfold XF.usize_val; lia).
    rewrite HF.add64 by (try reflexivity; try exact UI; unfold XF.usize_val; lia).
    destruct (Ld.uadd (chk p) (TV.start_addr out) (Z.of_nat i)) as [a|] eqn:EA; [cbn [option_map]|reflexivity].
    assert (UA : XF.usize_val a) by (eapply HF.uadd_val; [| |exact EA]; [unfold XF.usize_val; lia|exact UI]).
    rewrite XF.usub_eq by (try exact UA; unfold XF.usize_val; lia).
    destruct (TV.usub (chk p) a off) as [o|] eqn:EO; [cbn [option_map]|reflexivity].
    assert (UO : XF.usize_val o) by (eapply XF.usub_val; [exact UA| |exact EO]; unfold XF.usize_val; lia).
    unfold H.host_RAM_SIZE. rewrite XF.rem_lit by (try reflexivity; unfold XF.usize_val in UO; lia).
    rewrite XF.index_at. change 4096 with Ld.RAM_SIZE. destruct (nth_error bytes _); reflexivity. }
  cbn [app]. destruct (TV.mapM _ _); reflexivity.
Qed.

(** ** the encrypted half *)
Section Half.
Variables (e : Ld.elf) (ph : Ld.phantom) (bytes tape : list Z) (n : nat).
Hypothesis (HE : Verif.LoadSpec.elf_ok e) (HP : Ld.from_elf (chk p) e = Some ph) (HB : Forall TestRunSpec.is_byte tape)
  (HT : 0 <= threads) (HZ : 0 < Ld.b_size (Ld.boot_rom ph)) (HN : Z.of_nat n < 2 ^ 32).
Notation th := (Z.to_nat threads).
Notation rb := (Z.to_nat (Z.log2_up (Z.of_nat (length (Ld.b_data (Ld.boot_rom ph))) / 4))).
Hypothesis (FU : (7 < fuel)%nat) (LG : (log <= 62)%nat) (SHF : shuffles shuffle) (CO : client_ok (2 ^ 24)) (GI : gives (2 ^ 24)) (KO : keys_ok)
  (PM : CryptographicParameters_new Hs = pm) (TH : chk p = true \/ threads < 2 ^ 40) 
  (WO : threads < 2 ^ 40 -> gives work /\ PE.in_bytes sp sw l sl kl log rb 10 th).
Definition same_ram (v v' : Verif.EncVM.evm G.poly bool (list Z)) : Prop := Verif.EncSpec.dec_ram v = Verif.EncSpec.dec_ram v' /\ V.v_ram_size v' = 1024%nat.
Lemma same_output : forall v v' out off m d m' d', same_ram v v' -> V.v_ram_size v = 1024%nat ->
  Ld.enc_output (chk p) {| Ld.ev_vm := v; Ld.ev_out := out; Ld.ev_offset := off; Ld.ev_max := m; Ld.ev_debug := d |} =
  Ld.enc_output (chk p) {| Ld.ev_vm := v'; Ld.ev_out := out; Ld.ev_offset := off; Ld.ev_max := m'; Ld.ev_debug := d' |}.
Proof.
  intros v v' out off m d m' d' (E & S') S. unfold Ld.enc_output. cbn [Ld.ev_vm Ld.ev_out Ld.ev_offset].
  unfold Verif.EncSpec.dec_ram in E. rewrite S, S' in E. change (Z.to_nat (Z.shiftr Ld.RAM_SIZE 2)) with 1024%nat. rewrite E. reflexivity.
Qed.

Lemma enc_side :
  (ev <- H.Phantom_encrypted_vm L N Hs p (HF.phantom_of bytes ph) (map Int tape) (Int (Z.of_nat n)) ;;
   ev <- H.EncryptedVM_execute L N Hs p fuel ev ;;
   '(_, have) <- H.EncryptedVM_output_tape L N Hs p ev ;; Some have) =
  match Y.cycles_space y (Z.of_nat log) (Z.of_nat rb) 5 10 true debug threads work n with
  | Some _ => option_map (map Int)
     (ev <- Ld.encrypted_vm log (debug_assertions p) (chk p) debug ph tape n ;;
      if negb (chk p) || (2 ^ 24 * threads <? 2 ^ 64) then
      ev' <- Ld.enc_execute log (chk p) (repeat (PE.seq_env th) n) ev ;;
      Ld.enc_output (chk p) ev' else None)
  | None => None
  end.
Proof.
  rewrite (encrypted_text e ph bytes tape n HE HP HB HT HZ CO GI KO PM).
  destruct (Ld.encrypted_vm log (debug_assertions p) (chk p) debug ph tape n) as [ev|] eqn:EV; [|destruct (Y.cycles_space _ _ _ _ _ _ _ _ _ _); reflexivity].
  cbn [option_map]. rewrite execute_text; [|exact HT|].
  2: { intros [C|C]; apply WO; [lia|destruct TH; [congruence|assumption]]. }
  destruct (negb (chk p) || (2 ^ 24 * threads <? 2 ^ 64)) eqn:AS; [|destruct (Y.cycles_space _ _ _ _ _ _ _ _ _ _); reflexivity].
  assert (T40 : threads < 2 ^ 40).
  { destruct TH as [C|C]; [|exact C]. rewrite C in AS. cbn [negb orb] in AS. apply Z.ltb_lt in AS. lia. }
  destruct (WO T40) as [GW IB].
  assert (WK : work = 2 ^ 24 * threads) by (unfold work; rewrite Z.mod_small by lia; reflexivity).
  destruct (LR.enc_boot_inv (chk p) e ph HE HP log (debug_assertions p) debug tape n ev EV HB) as (OK & HFI & BO & O1 & O2 & O3 & O4).
  destruct (LR.rom_facts (chk p) e ph HE HP) as (R1 & R2 & R3 & R4). destruct (LR.ram_facts (chk p) e ph HE HP) as (M1 & M2 & M3 & M4 & I1 & I2).
  pose proof OK as (K1 & K2 & K3).
  assert (Q4 : 0 < Z.of_nat (length (Ld.b_data (Ld.boot_rom ph))) / 4).
  { rewrite R2 in K1, K2. pose proof (Z.div_mod (Z.of_nat (length (Ld.b_data (Ld.boot_rom ph)))) 4 ltac:(lia)). lia. }
  destruct (LR.rom_bits (chk p) e ph HE HP K1 K2) as (rb' & RB & Hrb).
  assert (rb' = rb).
  { pose proof RB as RB'. rewrite R2, Z.shiftr_div_pow2 in RB' by lia. change (2 ^ 2) with 4 in RB'. rewrite Z2Nat.id in RB' by lia.
    rewrite (PropHost.bits_up _ Q4) in RB'. congruence. }
  subst rb'.
  pose proof (LR.enc_fits (chk p) e ph HE HP (debug_assertions p) debug tape rb OK HFI HB RB Hrb) as FT.
  set (v0 := Ld.ev_vm ev) in *. set (rb0 := rb) in *. clearbody rb0.
  destruct (EncRun.boots_shows _ _ _ _ _ _ _ _ _ FT BO) as (r & HFL & SH & DB).
  pose proof FT as (_ & _ & _ & _ & F5 & _).
  assert (FD : full_o (V.v_debug v0)).
  { rewrite DB. generalize debug. intros [|]; [|exact I].
    apply (PE.start_full garbage garbage_i64 gl_n enc dec l (Z.to_nat (Z.shiftr (Ld.b_size (Ld.boot_rom ph)) 2)) (2 ^ 10) (debug_assertions p) r _ _ HFL); [|exact F5].
    destruct SH as (((_ & _ & _ & W & _) & _) & _). cbn [Verif.EncSpec.x_rom Verif.EncSpec.xstart Verif.EncSpec.pad_roms DM.imm_rom] in W.
    apply Forall_app in W. apply W. }
  pose proof (PE.shows_fit log garbage garbage_i64 gl_n enc dec l fuel rb0 10 v0 _ SH FD) as FV.
  pose proof SH as (_ & _ & _ & S4 & _ & _ & _ & _ & _ & _ & S11 & S12 & _ & _ & _ & S16 & _). cbn [Verif.EncSpec.x_cycle Verif.EncSpec.xstart] in S16.
  set (sk := if debug then Some tt else None).
  pose proof (PE.C98_run A sp garbage garbage_i64 gl_n enc dec next sw (ideal_bdd log) G.decrypt_word Bdd.pack_bits shuffle p l sl kl fuel
    sk work verbose th (repeat (PE.seq_env th) n) (buf0 A) v0) as R.
  rewrite S4, S12, S16, repeat_length in R. change (0 =? 0) with true in R. change (Z.of_nat 10) with 10 in R. rewrite Z2Nat.id in R by exact HT.
  assert (EO : Forall (fun e => V.n_threads e = th /\ (th <> 0%nat -> Verif.EncSpec.env_ok e)) (repeat (PE.seq_env th) n)).
  { apply Forall_forall. intros x I. apply repeat_spec in I. subst x. split; [reflexivity|apply (PE.seq_env_ok garbage garbage_i64 gl_n enc dec l)]. }
  specialize (R (conj FU (conj LG (conj (ideal_select log) (conj SHF (ideal_circuits log))))) IB EO (PE.wide_0 A) FV ltac:(lia)).
  change (G.log_n A) with log in R.
  assert (KY : keyed sk (V.v_debug v0) = debug).
  { rewrite DB. unfold sk. generalize debug. intros [|]; reflexivity. }
  rewrite KY in R. rewrite O4, O3.
  change (H.EncryptedVM_interpreter (vm_of ev)) with (interp verbose th (buf0 A) v0). fold sk.
  destruct (Y.cycles_space _ _ _ _ _ _ _ _ _ _); [|rewrite R; reflexivity].
  unfold Ld.enc_execute. rewrite repeat_length, O3, Nat.eqb_refl, O4. fold v0.
  destruct (Nat.eq_dec th 0) as [T0|TN].
  { (* no threads *)
    destruct n as [|n'].
    2: { assert (EC : forall k, V.ecycles A k (chk p) (repeat (PE.seq_env th) (Datatypes.S n')) v0 = None).
         { intro k. apply (PropHost.C88_no_threads _ _ _ A k (chk p) (PE.seq_env th)). exact T0. }
         rewrite EC in R. rewrite R. cbn [option_map].
         lazymatch goal with |- _ = option_map _ match match ?x with _ => _ end with _ => _ end => replace x with (@None (V.evm G.poly bool (list Z))) by (symmetry; apply EC) end. reflexivity. }
    cbn [repeat V.ecycles] in R. destruct R as (b & R & _ & _). rewrite R. cbn [option_map repeat Verif.EncVM.ecycles].
    rewrite O1, O2.
    lazymatch goal with |- match ?x with _ => _ end = _ => replace x with (option_map (fun o => (with_interp (vm_of ev) (interp verbose th b v0), map (@Int U8) o))
      (Ld.enc_output (chk p) {| Ld.ev_vm := v0; Ld.ev_out := Ld.out_info ph; Ld.ev_offset := Ld.b_offset (Ld.boot_ram ph); Ld.ev_max := 0; Ld.ev_debug := debug |})) end.
    2: { symmetry. unfold with_interp, vm_of. rewrite O1, O2, O4.
      exact (output_text rb0 v0 _ b verbose th (Ld.out_info ph) (Ld.b_offset (Ld.boot_ram ph)) _ debug CO GI SH I2 M1). }
    destruct (Ld.enc_output _ _); reflexivity. }
  assert (EO' : Forall Verif.EncSpec.env_ok (repeat (PE.seq_env th) n)).
  { apply Forall_forall. intros x I. apply repeat_spec in I. subst x. apply (PE.seq_env_ok garbage garbage_i64 gl_n enc dec l), TN. }
  assert (CW : client_ok work).
  { assert (2 ^ 24 <= work) by (rewrite WK; lia). unfold PE.client_ok in *. intuition lia. }
  pose proof (PE.text_key log sp garbage garbage_i64 gl_n enc dec next p l sl fuel pm work sk CW) as TK.
  set (kt := PE.key_of A sp garbage garbage_i64 gl_n enc dec next G.decrypt_word Bdd.pack_bits p l sk work) in *.
  assert (TK' : EncCycle.key_ok log kt debug).
  { replace debug with (match sk with Some _ => true | None => false end) by (unfold sk; destruct debug; reflexivity). exact TK. }
  assert (REL : match V.ecycles A kt (chk p) (repeat (PE.seq_env th) n) v0,
                      V.ecycles A (if debug then Some Verif.EncVM.secret_key else None) (chk p) (repeat (PE.seq_env th) n) v0 with
                | Some v, Some v' => same_ram v v'
                | None, None => True
                | _, _ => False
                end).
  { pose proof (fun v k d K E => Verif.EncTrack.run_shows log k d rb0 10 (chk p) (repeat (PE.seq_env th) n) K EO' v0 _ v SH E) as RS.
    assert (KS : EncCycle.key_ok log (if debug then Some Verif.EncVM.secret_key else None) debug) by apply EncCycle.key_when.
    destruct debug eqn:DG.
    - pose proof (PropShadow.C63_checked_runs_exact log (debug_assertions p) _ rb0 10 _ _ v0 kt (chk p) (repeat (PE.seq_env th) n) FT BO TK' EO') as C1.
      pose proof (PropShadow.C63_checked_runs_exact log (debug_assertions p) _ rb0 10 _ _ v0 (Some Verif.EncVM.secret_key) (chk p) (repeat (PE.seq_env th) n) FT BO KS EO') as C2.
      rewrite repeat_length in C1, C2. specialize (C1 HN). specialize (C2 HN).
      destruct (V.ecycles A kt _ _ v0) as [v|] eqn:E1; [replace (EncVM.ecycles A kt _ _ v0) with (Some v) in C1 by (symmetry; exact E1)|
        replace (EncVM.ecycles A kt _ _ v0) with (@None (V.evm G.poly bool (list Z))) in C1 by (symmetry; exact E1)];
      (destruct (V.ecycles A (Some _) _ _ v0) as [v'|] eqn:E2; [replace (EncVM.ecycles A (Some _) _ _ v0) with (Some v') in C2 by (symmetry; exact E2)|
        replace (EncVM.ecycles A (Some _) _ _ v0) with (@None (V.evm G.poly bool (list Z))) in C2 by (symmetry; exact E2)]);
      destruct (ShadowSpec.sh_run _ _ _ _ _) as [m|]; try contradiction; auto.
      destruct C1 as (_ & (o1 & A1 & A2 & A3) & _), C2 as (_ & (o2 & B1 & B2 & B3) & _).
      split; [|apply (RS v' _ _ KS E2)]. rewrite A1, B1. f_equal. apply Verif.ListFacts.nth_error_ext. intro k.
      destruct (Nat.lt_ge_cases k (2 ^ 10)) as [LT|GE].
      + assert (LZ : 0 <= Z.of_nat k < 2 ^ Z.of_nat 10) by (change (2 ^ Z.of_nat 10) with (Z.of_nat (2 ^ 10)); lia).
        pose proof (A3 (Z.of_nat k) LZ) as P1. pose proof (B3 (Z.of_nat k) LZ) as P2. rewrite Nat2Z.id in P1, P2. congruence.
      + rewrite (proj2 (nth_error_None o1 k)) by lia. rewrite (proj2 (nth_error_None o2 k)) by lia. reflexivity.
    - change kt with (@None (V.secret G.poly bool (list Z))). destruct (V.ecycles A None _ _ v0) as [v|] eqn:E2; [|exact I].
      split; [reflexivity|]. apply (RS v _ _ KS E2). }
  lazymatch goal with |- _ = option_map _ match match ?x with _ => _ end with _ => _ end =>
    change x with (V.ecycles A (if debug then Some Verif.EncVM.secret_key else None) (chk p) (repeat (PE.seq_env th) n) v0) end.
  destruct (V.ecycles A kt (chk p) (repeat (PE.seq_env th) n) v0) as [v|] eqn:EC.
  2: { rewrite R. destruct (V.ecycles A (if debug then _ else _) _ _ v0); [destruct REL|reflexivity]. }
  destruct (V.ecycles A (if debug then _ else _) _ _ v0) as [v'|]; [|destruct REL].
  destruct R as (b & R & _ & _). rewrite R. cbn [option_map]. rewrite O1, O2.
  pose proof (Verif.EncTrack.run_shows log kt debug rb0 10 (chk p) (repeat (PE.seq_env th) n) TK' EO' v0 _ v SH EC) as SV.
  lazymatch goal with |- match ?x with _ => _ end = _ => replace x with (option_map (fun o => (with_interp (vm_of ev) (interp verbose th b v), map (@Int U8) o))
    (Ld.enc_output (chk p) {| Ld.ev_vm := v; Ld.ev_out := Ld.out_info ph; Ld.ev_offset := Ld.b_offset (Ld.boot_ram ph); Ld.ev_max := 0; Ld.ev_debug := debug |})) end.
  2: { symmetry. unfold with_interp, vm_of. rewrite O1, O2, O4.
    exact (output_text rb0 v _ b verbose th (Ld.out_info ph) (Ld.b_offset (Ld.boot_ram ph)) _ debug CO GI SV I2 M1). }
  rewrite (same_output v v' _ _ _ _ n debug REL) by (apply SV).
  destruct (Ld.enc_output _ _); reflexivity.
Qed.

(** ** the cleartext half *)
Lemma test_half : Z.of_nat (length tape) < 2 ^ 63 -> (n < fuel)%nat ->
  (tv <- H.Phantom_test_vm p (HF.phantom_of bytes ph) (Int (Z.of_nat n)) ;;
   tv <- X.TestVM_read_input_tape p tv (map Int tape) ;;
   tv <- X.TestVM_execute p fuel tv ;;
   X.TestVM_output_tape p tv) =
  option_map (map Int)
   (tv <- Ld.test_vm (chk p) ph n ;; tv <- TV.read_input_tape (chk p) tv tape ;; tv <- TV.execute (chk p) tv ;; TV.output_tape (chk p) tv).
Proof.
  intros LT FN. destruct (LR.rom_facts (chk p) e ph HE HP) as (R1 & R2 & R3 & R4). destruct (LR.ram_facts (chk p) e ph HE HP) as (M1 & M2 & M3 & M4 & (I1 & I2) & (O1 & O2)).
  unfold Verif.LoadSpec.is_u32, Ld.RAM_SIZE in *. change (2 ^ 32) with 4294967296 in *. change (2 ^ 63) with 9223372036854775808 in *.
  assert (V1 : XE.vec (Ld.b_data (Ld.boot_rom ph))) by (split; [exact R4|lia]).
  assert (V2 : XE.vec (Ld.b_data (Ld.boot_ram ph))) by (split; [exact M4|lia]).
  unfold H.Phantom_test_vm, Ld.test_vm.
  cbn [HF.phantom_of H.Phantom_boot_rom H.Phantom_boot_ram H.Phantom_input_info H.Phantom_output_info HF.boot_text].
  destruct (XE.init_eq p (Ld.b_offset (Ld.boot_rom ph)) (Ld.b_size (Ld.boot_rom ph)) (Ld.b_data (Ld.boot_rom ph)) (Ld.b_offset (Ld.boot_ram ph)) (Ld.b_size (Ld.boot_ram ph)) (Ld.b_data (Ld.boot_ram ph))
    (Ld.inp_info ph) (Ld.out_info ph) n) as (J1 & J2); try assumption; try (unfold XF.usize_val; lia); try lia.
  unfold HF.boot_text. rewrite J1. destruct (TV.init (chk p) _ _ _ _ _ _ _ _ n) as [ s | ]; [ cbn [option_map] | reflexivity ].
  destruct (J2 s eq_refl) as (T & EI & EO & EN).
  destruct (XE.input_eq p s tape T (conj HB LT)) as (Q1 & Q2); [ rewrite EI; unfold XF.usize_val; lia | ].
  rewrite Q1. destruct (TV.read_input_tape (chk p) s tape) as [ s1 | ]; [ cbn [option_map] | reflexivity ].
  destruct (Q2 s1 eq_refl) as (T1 & _ & KI & KOU & KN). rewrite EO in KOU. rewrite EN in KN.
  rewrite XE.execute_eq by (auto; rewrite KN; auto; lia).
  destruct (TV.execute (chk p) s1) as [ s2 | ] eqn:X2; [ cbn [option_map] | reflexivity ].
  destruct (XE.run_n_good _ _ _ _ T1 X2) as (T2 & _ & _ & KO2 & _). rewrite KOU in KO2.
  apply XE.output_eq; auto; rewrite KO2; lia.
Qed.
End Half.
End Run.
