(** * The client's functions of fhevm/src/interpreter.rs against the model of them (helper lemmas) *)
Require Import ZArith List Bool Lia Znat.
From Verif Require Import Rust RustIter RustLib RustEng TextLib TextLoop TextEng TextMemFacts TextMemClient TextPrep PropTextMem TextPlanes TextShadow TextCycle.
Require Verif.Word Verif.Isa Verif.Codec Verif.EvalPlain Verif.DebugVM Verif.Glwe Verif.Par Verif.EncMem Verif.Scratch Verif.CycleScratch
  Verif.Prepare Verif.EncEval Verif.EncVM Verif.EncSpec Verif.MemSpec Verif.ListFacts.
Require Verif.TextInstr Verif.TextDebug Verif.TextFacts Verif.TextMem Verif.TextEnc.
Module TI := Verif.TextInstr.
Module MS := Verif.MemSpec.
Import ListNotations.
Open Scope Z_scope.

Notation column := (list (int U32)).
Notation columns := (column * column * column * column * column * column * column)%type.
(** the seven columns in the order of the text: rs1, rs2, rd, imm, rdu, mu, pcu *)
Definition cols (r : DM.roms) : columns :=
  (map Int (DM.rs1_rom r), map Int (DM.rs2_rom r), map Int (DM.rd_rom r), map Int (DM.imm_rom r),
   map Int (DM.rdu_rom r), map Int (DM.mu_rom r), map Int (DM.pcu_rom r)).
Definition rom_body (p : profile) (q : Codec.parser) : int USize -> columns -> option columns :=
  fun (i : int USize) '(data_ram_rs1, data_ram_rs2, data_ram_rd, data_ram_imm, data_ram_rdu, data_ram_mu, data_ram_pcu) => t2 <- TI.InstructionsParser_get_raw p (F.parser_of q) i ;;
    t3 <- TI.Instruction_get_imm p t2 ;;
    let t4 : int U32 := (cast U32 t3) in
    t5 <- store data_ram_imm i t4 ;;
    let data_ram_imm := t5 in
    t6 <- TI.InstructionsParser_get_raw p (F.parser_of q) i ;;
    t7 <- TI.Instruction_get_registers p t6 ;;
    let '(rs2, rs1, rd) := t7 in
    let t8 : int U32 := (cast U32 rs1) in
    t9 <- store data_ram_rs1 i t8 ;;
    let data_ram_rs1 := t9 in
    let t10 : int U32 := (cast U32 rs2) in
    t11 <- store data_ram_rs2 i t10 ;;
    let data_ram_rs2 := t11 in
    let t12 : int U32 := (cast U32 rd) in
    t13 <- store data_ram_rd i t12 ;;
    let data_ram_rd := t13 in
    t14 <- TI.InstructionsParser_get_raw p (F.parser_of q) i ;;
    t15 <- TI.Instruction_get_opid p t14 ;;
    let '(rdu, mu, pcu) := t15 in
    let t16 : int U32 := (cast U32 (TI.RD_UPDATE_discriminant rdu)) in
    t17 <- store data_ram_rdu i t16 ;;
    let data_ram_rdu := t17 in
    let t18 : int U32 := (cast U32 (TI.RAM_UPDATE_discriminant mu)) in
    t19 <- store data_ram_mu i t18 ;;
    let data_ram_mu := t19 in
    let t20 : int U32 := (cast U32 (TI.PC_UPDATE_discriminant pcu)) in
    t21 <- store data_ram_pcu i t20 ;;
    let data_ram_pcu := t21 in
    Some (data_ram_rs1, data_ram_rs2, data_ram_rd, data_ram_imm, data_ram_rdu, data_ram_mu, data_ram_pcu).

Definition skip_roms (n : nat) (r : DM.roms) : DM.roms :=
  DM.Build_roms (skipn n (DM.imm_rom r)) (skipn n (DM.rs1_rom r)) (skipn n (DM.rs2_rom r)) (skipn n (DM.rd_rom r))
    (skipn n (DM.rdu_rom r)) (skipn n (DM.mu_rom r)) (skipn n (DM.pcu_rom r)).

Lemma store_past : forall {X} (r : list X) k x, length r = k -> store r (Int (Z.of_nat k)) x = None.
Proof.
  intros X r k x <-. unfold store, val. rewrite Nat2Z.id. induction r as [|y r IH]; [reflexivity|]. cbn [length Rust.replace]. now rewrite IH.
Qed.
Lemma columns_loop : forall p q ws pre post D R n,
  Codec.p_raw q = pre ++ ws ++ post -> F.rom_len (length pre) D -> F.rom_len n R ->
  for_each (counting (length ws) (Z.of_nat (length pre))) (rom_body p q) (cols (F.app_roms D R))
  = (if (length ws <=? n)%nat then option_map (fun r => cols (F.app_roms D (F.app_roms r (skip_roms (length ws) R)))) (DM.fill (debug_assertions p) ws) else None).
Proof.
  intros p q ws. induction ws as [ | w ws IH ]; intros pre post D R n Q LD LR.
  - cbn [length counting for_each DM.fill option_map Nat.leb].
    unfold skip_roms, F.app_roms. cbn [skipn app DM.imm_rom DM.rs1_rom DM.rs2_rom DM.rd_rom DM.rdu_rom DM.mu_rom DM.pcu_rom]. reflexivity.
  - destruct D as [ d1 d2 d3 d4 d5 d6 d7 ], R as [ r1 r2 r3 r4 r5 r6 r7 ].
    unfold F.rom_len in LD, LR.
    cbn [DM.imm_rom DM.rs1_rom DM.rs2_rom DM.rd_rom DM.rdu_rom DM.mu_rom DM.pcu_rom] in LD, LR.
    destruct LD as (D1 & D2 & D3 & D4 & D5 & D6 & D7).
    destruct LR as (L1 & L2 & L3 & L4 & L5 & L6 & L7).
    cbn [length counting for_each DM.fill].
    destruct n as [|n].
    { destruct r1, r2, r3, r4, r5, r6, r7; try discriminate. cbn [Nat.leb].
      unfold rom_body at 1. unfold cols, F.app_roms.
      cbn [DM.imm_rom DM.rs1_rom DM.rs2_rom DM.rd_rom DM.rdu_rom DM.mu_rom DM.pcu_rom]. cbv beta iota zeta.
      rewrite F.parser_get_raw_eq. unfold Codec.parser_get_raw. rewrite Q.
      rewrite nth_error_app2, Nat.sub_diag by lia. cbn [app nth_error option_map].
      rewrite F.get_imm_eq. destruct (Codec.get_imm (debug_assertions p) w) as [ im | ]; [ cbn [option_map] | reflexivity ].
      rewrite app_nil_r, store_past by (now rewrite map_length). reflexivity. }
    destruct r1 as [ | x1 r1 ], r2 as [ | x2 r2 ], r3 as [ | x3 r3 ], r4 as [ | x4 r4 ], r5 as [ | x5 r5 ],
      r6 as [ | x6 r6 ], r7 as [ | x7 r7 ]; try discriminate.
    match goal with |- match ?e with _ => _ end = _ =>
      assert (B : e = option_map (fun c : Z * Z * Z * Z * Z * Z * Z =>
        let '(im, rs1, rs2, rd, a, b, c) := c in
        cols (F.app_roms
          (DM.Build_roms (d1 ++ [im]) (d2 ++ [rs1]) (d3 ++ [rs2]) (d4 ++ [rd]) (d5 ++ [a]) (d6 ++ [b]) (d7 ++ [c]))
          (DM.Build_roms r1 r2 r3 r4 r5 r6 r7))) (DM.components (debug_assertions p) w)) end.
    { unfold rom_body, cols, F.app_roms.
      cbn [DM.imm_rom DM.rs1_rom DM.rs2_rom DM.rd_rom DM.rdu_rom DM.mu_rom DM.pcu_rom]. cbv beta iota zeta.
      rewrite F.parser_get_raw_eq. unfold Codec.parser_get_raw. rewrite Q.
      rewrite nth_error_app2, Nat.sub_diag by lia. cbn [app nth_error option_map].
      rewrite F.get_imm_eq, F.get_registers_eq, F.get_opid_eq. unfold DM.components.
      destruct (Codec.get_imm (debug_assertions p) w) as [ im | ]; [ cbn [option_map] | reflexivity ].
      rewrite !map_app. cbn [map].
      assert (ST : forall (d r : list Z) x v, length d = length pre ->
        store (map (@Int U32) d ++ Int x :: map (@Int U32) r) (Int (Z.of_nat (length pre))) v
        = Some (map (@Int U32) d ++ v :: map (@Int U32) r)).
      { intros d r x v E. apply F.store_next. rewrite Nat2Z.id, map_length. auto. }
      rewrite ST by exact D1.
      destruct (Codec.get_registers (debug_assertions p) w) as [ [[rs2 rs1] rd] | ]; [ cbn [option_map F.regs_of] | reflexivity ].
      rewrite ST by exact D2. rewrite ST by exact D3. rewrite ST by exact D4.
      destruct (Codec.get_opid (debug_assertions p) w) as [ [[o1 o2] o3] | ]; [ cbn [option_map F.opid_of] | reflexivity ].
      rewrite F.rd_disc, F.ram_disc, F.pc_disc.
      rewrite ST by exact D5. rewrite ST by exact D6. rewrite ST by exact D7.
      rewrite <- ?app_assoc. cbn [app]. rewrite !map_app. cbn [map].
      replace (@Int U32 (Codec.rd_id o1)) with (@cast USize U32 (Int (Codec.rd_id o1))) by (destruct o1; reflexivity).
      replace (@Int U32 (Codec.ram_id o2)) with (@cast USize U32 (Int (Codec.ram_id o2))) by (destruct o2; reflexivity).
      replace (@Int U32 (Codec.pc_id o3)) with (@cast USize U32 (Int (Codec.pc_id o3))) by (destruct o3; reflexivity).
      reflexivity. }
    rewrite B. clear B. cbn [Nat.leb].
    destruct (DM.components (debug_assertions p) w) as [ [[[[[[im rs1] rs2] rd] a] b] c] | ];
      [ cbn [option_map] | destruct (length ws <=? n)%nat; reflexivity ].
    assert (E : Z.of_nat (length pre) + 1 = Z.of_nat (length (pre ++ [w]))) by (rewrite app_length; cbn; lia).
    rewrite E, (IH (pre ++ [w]) post _ _ n).
    + destruct (length ws <=? n)%nat; [|reflexivity].
      destruct (DM.fill (debug_assertions p) ws) as [ r | ]; [ cbn [option_map] | reflexivity ].
      unfold F.app_roms, skip_roms. cbn [DM.imm_rom DM.rs1_rom DM.rs2_rom DM.rd_rom DM.rdu_rom DM.mu_rom DM.pcu_rom skipn].
      rewrite <- !app_assoc. reflexivity.
    + rewrite Q, <- app_assoc. reflexivity.
    + unfold F.rom_len. cbn [DM.imm_rom DM.rs1_rom DM.rs2_rom DM.rd_rom DM.rdu_rom DM.mu_rom DM.pcu_rom].
      rewrite !app_length. cbn [length]. lia.
    + unfold F.rom_len. cbn [DM.imm_rom DM.rs1_rom DM.rs2_rom DM.rd_rom DM.rdu_rom DM.mu_rom DM.pcu_rom].
      cbn [length] in *. lia.
Qed.

Section Client.
Context {GL KL SL Src : Type}.
Notation pb := bool.
Notation fu := (list Z).
Variable A : G.alg (list Z) pb fu.
Variable sp : space GL KL SL.
Variable garbage : Z -> nat -> list Z.
Variable garbage_i64 : Z -> nat -> int I64.
Variable gl_n : GL -> Z.
Variable enc : Z -> list Z -> list Z.
Variable dec : Z -> list Z -> list Z.
Variable next : Src -> Src.
Variable sw : word_space GL KL SL.
Variable bdd : Circuits -> list pb -> list (list Z).
Variable dec_word : fu -> Z.
Variable dec_prepared : list pb -> Z.
Variable shuffle : list (nat * fu) -> list (nat * fu).
Let L : library := lib A sp garbage garbage_i64 gl_n enc dec next.
Let N : engine L := eng A sp garbage garbage_i64 gl_n enc dec next sw bdd dec_word dec_prepared shuffle.
Notation mem_of := (mem_of A sp garbage garbage_i64 gl_n enc dec next).
Notation interp := (interp A sp garbage garbage_i64 gl_n enc dec next).
Notation log := (G.log_n A).
Variables (p : profile) (l : GL) (sl : SL).

Definition buf0 : bufs pb fu :=
  let w := G.a_fzero A in let q := repeat (G.a_pzero A) 32 in
  Bufs w w q q w q w q w q w q w q w q w q w q w q w q.

Lemma new_text : forall debug pm rom_size ram_size,
  i_rom pm = l -> i_ram pm = l -> i_word pm = l -> i_prepared pm = sl -> gl_n l = 2 ^ Z.of_nat log ->
  (0 < rom_size)%nat -> Z.of_nat rom_size < 2 ^ 64 -> (0 < ram_size)%nat -> Z.of_nat ram_size < 2 ^ 64 ->
  T.Interpreter_new_internal L N p debug pm (zi rom_size) (zi ram_size) =
  option_map (interp l sl false 1 buf0) (V.evm_new A debug rom_size ram_size).
Proof.
  intros debug pm a b H1 H2 H3 H4 GN A0 A1 B0 B1. unfold T.Interpreter_new_internal, V.evm_new. cbv zeta.
  assert (EA : TM.Memory_alloc L p l (lit 32) (zi a) = option_map (mem_of l) (M.mem_alloc A 32 a)).
  { exact (C97_alloc A sp garbage garbage_i64 gl_n enc dec next p l 32 a GN A0 A1). }
  assert (EB : TM.Memory_alloc L p l (lit 32) (zi b) = option_map (mem_of l) (M.mem_alloc A 32 b)).
  { exact (C97_alloc A sp garbage garbage_i64 gl_n enc dec next p l 32 b GN B0 B1). }
  assert (ER : TM.Memory_alloc L p l (lit 32) (lit 32) = option_map (mem_of l) (M.mem_alloc A 32 32)).
  { exact (C97_alloc A sp garbage garbage_i64 gl_n enc dec next p l 32 32 GN ltac:(lia) ltac:(lia)). }
  change (CryptographicParameters_rom_infos N pm) with (i_rom pm). change (CryptographicParameters_ram_infos N pm) with (i_ram pm).
  change (CryptographicParameters_fhe_uint_infos N pm) with (i_word pm). change (CryptographicParameters_fhe_uint_prepared_infos N pm) with (i_prepared pm).
  rewrite H1, H2, H3, H4, EA, EB, ER.
  destruct (M.mem_alloc A 32 a) as [ma|]; [cbn [option_map]|reflexivity].
  destruct (M.mem_alloc A 32 32) as [mr|]; [cbn [option_map]|reflexivity].
  destruct (M.mem_alloc A 32 b) as [mb|]; [cbn [option_map]|reflexivity].
  unfold zi at 1 2. rewrite F.dvm_new_eq.
  destruct (Word.bit_len_pred (Z.of_nat b)) as [kb|] eqn:KB.
  2: { unfold Word.bit_len_pred in KB. destruct (Z.leb_spec (Z.of_nat b) 0); [clear - H B0; lia|discriminate]. }
  destruct (Word.bit_len_pred (Z.of_nat a)) as [ka|] eqn:KA.
  2: { unfold Word.bit_len_pred in KA. destruct (Z.leb_spec (Z.of_nat a) 0); [clear - H A0; lia|discriminate]. }
  destruct (bit_len_text p b kb B1 KB) as (t1 & t2 & E1 & E2 & E3).
  destruct (bit_len_text p a ka A1 KA) as (t3 & t4 & E4 & E5 & E6).
  unfold zi at 1 2. rewrite E1, E4. destruct debug; rewrite E2, E5; rewrite E3, E6; reflexivity.
Qed.

(** the numbers of encryptions of a memory *)
Definition enc_count (m : M.memory (list Z)) : nat := list_sum (map (plane_chunks A (M.m_size m)) (M.m_planes m)).
Definition planes_some (m : M.memory (list Z)) : Prop := Forall (fun b => M.ba_data b <> []) (M.m_planes m).
Hypothesis ENC : forall x, enc 2 x = x.
Hypothesis PL : 0 <= s_plain sp l.
Hypothesis EN : 0 <= s_encrypt sp l.
Variable avail : Z.
Hypothesis AV : s_plain sp l + 8 * 2 ^ Z.of_nat log + s_encrypt sp l <= avail.

Lemma mem_enc : forall m data xa xe, planes_some m ->
  TM.Memory_encrypt_sk L p (mem_of l m) tt (map Int data) tt xa xe avail =
  option_map (fun m' => (mem_of l m', advance next (enc_count m) xa, advance next (enc_count m) xe)) (M.mem_encrypt log m data).
Proof. intros m data xa xe NE. exact (C97_encrypt A sp garbage garbage_i64 gl_n enc dec next p l m data xa xe avail ENC NE PL EN AV). Qed.

Definition rom_some (r : V.eroms (list Z)) : Prop :=
  planes_some (V.e_imm r) /\ planes_some (V.e_rs1 r) /\ planes_some (V.e_rs2 r) /\ planes_some (V.e_rd r) /\
  planes_some (V.e_rdu r) /\ planes_some (V.e_mu r) /\ planes_some (V.e_pcu r).
Definition rom_count (r : V.eroms (list Z)) : nat :=
  (enc_count (V.e_rs1 r) + enc_count (V.e_rs2 r) + enc_count (V.e_rd r) + enc_count (V.e_imm r) +
   enc_count (V.e_rdu r) + enc_count (V.e_mu r) + enc_count (V.e_pcu r))%nat.
Definition rom_shape (d : option DM.dvm) : Prop :=
  match d with Some d => F.rom_len (length (DM.imm_rom (DM.drom d))) (DM.drom d) | None => True end.

Definition with_debug (v : V.evm (list Z) pb fu) d : V.evm (list Z) pb fu :=
  V.EVM (V.v_cycle v) d (V.v_rom_bits v) (V.v_rom_size v) (V.v_rom v) (V.v_regs v) (V.v_ram_bits v) (V.v_ram_size v) (V.v_ram v) (V.v_pc v) (V.v_pcp v).

Lemma fill_len : forall dbg ws r, DM.fill dbg ws = Some r -> F.rom_len (length ws) r.
Proof.
  intros dbg ws. induction ws as [|w ws IH]; intros r H; cbn [DM.fill] in H.
  - injection H as <-. repeat split.
  - destruct (DM.components dbg w) as [[[[[[[c1 c2] c3] c4] c5] c6] c7]|]; [|discriminate].
    destruct (DM.fill dbg ws) as [r'|]; [|discriminate]. injection H as <-. destruct (IH r' eq_refl) as (I1 & I2 & I3 & I4 & I5 & I6 & I7).
    unfold F.rom_len. cbn. now rewrite I1, I2, I3, I4, I5, I6, I7.
Qed.
Lemma table_text : forall n (c : list Z) k, length c = k -> c ++ skipn k (repeat 0 n) = V.table n c.
Proof. intros n c k <-. unfold V.table. now rewrite skipn_rep. Qed.

Lemma instructions_text : forall verbose threads b v q xa xe,
  length (Codec.p_raw q) = length (Codec.p_ins q) -> rom_some (V.v_rom v) -> rom_shape (V.v_debug v) ->
  T.Interpreter_instructions_encrypt_sk L p (interp l sl verbose threads b v) tt (F.parser_of q) tt xa xe avail =
  option_map (fun v' => (interp l sl verbose threads b v', advance next (rom_count (V.v_rom v)) xa, advance next (rom_count (V.v_rom v)) xe))
    (V.instructions_encrypt log (debug_assertions p) v q).
Proof.
  intros verbose threads b v q xa xe LQ (S1 & S2 & S3 & S4 & S5 & S6 & S7) SH.
  unfold T.Interpreter_instructions_encrypt_sk, V.instructions_encrypt.
  lazymatch goal with |- match ?x with Some _ => _ | None => None end = _ =>
    assert (ED : x = option_map (fun d => interp l sl verbose threads b (with_debug v d))
      (match V.v_debug v with Some d => match DM.set_instructions (debug_assertions p) d q with Some d' => Some (Some d') | None => None end | None => Some None end)) end.
  { lazymatch goal with |- match ?x with Some _ => _ | None => _ end = _ => change x with (option_map F.dvm_of (V.v_debug v)) end.
    destruct (V.v_debug v) as [d|] eqn:VD; cbn [option_map].
    - rewrite (F.set_instructions_eq p d q SH LQ). destruct (DM.set_instructions (debug_assertions p) d q) as [d'|]; reflexivity.
    - unfold with_debug. rewrite <- VD. destruct v; reflexivity. }
  rewrite ED. clear ED.
  destruct (match V.v_debug v with Some d => match DM.set_instructions (debug_assertions p) d q with Some d' => Some (Some d') | None => None end | None => Some None end)
    as [d|]; [cbn [option_map]|reflexivity].
  cbv zeta. rewrite LQ, Nat.leb_refl. rewrite <- LQ at 1. rewrite firstn_all.
  set (n := V.v_rom_size v).
  lazymatch goal with |- match for_range _ _ ?f ?s with Some _ => _ | None => None end = _ =>
    change f with (rom_body p q);
    change s with (filled (@lit U32 0) (zi n), filled (@lit U32 0) (zi n), filled (@lit U32 0) (zi n), filled (@lit U32 0) (zi n),
       filled (@lit U32 0) (zi n), filled (@lit U32 0) (zi n), filled (@lit U32 0) (zi n)) end.
  rewrite filled_text. set (z := repeat 0 n).
  set (R := DM.Build_roms z z z z z z z).
  assert (LR : F.rom_len n R) by (repeat split; apply repeat_length).
  assert (LP := columns_loop p q (Codec.p_raw q) [] [] (DM.Build_roms [] [] [] [] [] [] []) R n).
  rewrite app_nil_r in LP. specialize (LP eq_refl ltac:(repeat split) LR).
  change (cols (F.app_roms (DM.Build_roms [] [] [] [] [] [] []) R)) with (cols R) in LP.
  lazymatch goal with |- match ?x with Some _ => _ | None => None end = _ =>
    assert (EL : x = for_each (counting (length (Codec.p_raw q)) (Z.of_nat (@length Z []))) (rom_body p q) (cols R)) end.
  { unfold for_range, len, lit, val. cbn [F.parser_of TI.InstructionsParser_instructions]. rewrite map_length, <- LQ, Z.sub_0_r, Nat2Z.id. reflexivity. }
  rewrite EL, LP. clear EL LP.
  rewrite LQ at 1.
  destruct (Nat.leb_spec (length (Codec.p_ins q)) n) as [FT|FT].
  2: { destruct (DM.fill (debug_assertions p) (Codec.p_raw q)); reflexivity. }
  destruct (DM.fill (debug_assertions p) (Codec.p_raw q)) as [r|] eqn:FI; [cbn [option_map]|reflexivity].
  destruct (fill_len _ _ _ FI) as (I1 & I2 & I3 & I4 & I5 & I6 & I7).
  unfold cols, F.app_roms, skip_roms, R.
  cbn [DM.imm_rom DM.rs1_rom DM.rs2_rom DM.rd_rom DM.rdu_rom DM.mu_rom DM.pcu_rom app]. cbv beta iota.
  unfold z. rewrite (table_text n _ _ I1), (table_text n _ _ I2), (table_text n _ _ I3), (table_text n _ _ I4), (table_text n _ _ I5), (table_text n _ _ I6), (table_text n _ _ I7).
  Ltac one S := lazymatch goal with |- match TM.Memory_encrypt_sk _ _ ?m _ (map Int ?d) _ ?a ?e _ with Some _ => _ | None => None end = option_map _ (match M.mem_encrypt _ ?m' _ with Some _ => _ | None => None end) =>
    change m with (TextMemFacts.mem_of A sp garbage garbage_i64 gl_n enc dec next l m'); rewrite (mem_enc m' d a e S);
    destruct (M.mem_encrypt log m' d); [cbn [option_map]; cbv beta iota zeta|reflexivity] end.
  one S2. one S3. one S4. one S1. one S5. one S6. one S7.
  rewrite !advance_add. cbn [option_map]. unfold rom_count. rewrite !Nat.add_assoc. reflexivity.
Qed.

Lemma registers_enc_text : forall verbose threads b v data xa xe, planes_some (V.v_regs v) ->
  T.Interpreter_init_registers L p (interp l sl verbose threads b v) tt (map Int data) tt xa xe avail =
  option_map (fun v' => (interp l sl verbose threads b v', advance next (enc_count (V.v_regs v)) xa, advance next (enc_count (V.v_regs v)) xe))
    (match M.mem_encrypt log (V.v_regs v) data with
     | Some m => Some (V.EVM (V.v_cycle v) (V.v_debug v) (V.v_rom_bits v) (V.v_rom_size v) (V.v_rom v) m (V.v_ram_bits v) (V.v_ram_size v) (V.v_ram v) (V.v_pc v) (V.v_pcp v))
     | None => None end).
Proof.
  intros verbose threads b v data xa xe S. unfold T.Interpreter_init_registers.
  one S. reflexivity.
Qed.
Lemma ram_enc_text : forall verbose threads b v data xa xe, planes_some (V.v_ram v) ->
  T.Interpreter_ram_encrypt_sk L p (interp l sl verbose threads b v) tt (map Int data) tt xa xe avail =
  option_map (fun v' => (interp l sl verbose threads b v', advance next (enc_count (V.v_ram v)) xa, advance next (enc_count (V.v_ram v)) xe))
    (V.ram_encrypt log v data).
Proof.
  intros verbose threads b v data xa xe S. unfold T.Interpreter_ram_encrypt_sk, V.ram_encrypt, TM.Memory_size_fn. cbv beta iota zeta.
  lazymatch goal with |- (if ?c then _ else _) = _ => assert (EC : c = (length data <=? M.m_size (V.v_ram v))%nat) end.
  { unfold le, len. rewrite map_length. cbn. destruct (Nat.leb_spec (length data) (M.m_size (V.v_ram v))); [apply Z.leb_le|apply Z.leb_gt]; lia. }
  rewrite EC. destruct (length data <=? M.m_size (V.v_ram v))%nat; [|reflexivity].
  lazymatch goal with |- match ?x with Some _ => _ | None => None end = _ =>
    assert (ED : x = option_map (fun d => interp l sl verbose threads b (with_debug v d))
      (match V.v_debug v with Some d => match DM.set_ram d data with Some d' => Some (Some d') | None => None end | None => Some None end)) end.
  { lazymatch goal with |- match ?x with Some _ => _ | None => _ end = _ => change x with (option_map F.dvm_of (V.v_debug v)) end.
    destruct (V.v_debug v) as [d|] eqn:VD; cbn [option_map].
    - rewrite (F.set_ram_eq p d data). destruct (DM.set_ram d data) as [d'|]; reflexivity.
    - unfold with_debug. rewrite <- VD. destruct v; reflexivity. }
  rewrite ED. clear ED.
  destruct (match V.v_debug v with Some d => match DM.set_ram d data with Some d' => Some (Some d') | None => None end | None => Some None end)
    as [d|]; [cbn [option_map]|reflexivity].
  cbv zeta. one S. reflexivity.
Qed.
End Client.
