(** * The translated homomorphic tests of the memory and of the two circuits (helper lemmas) *)
Require Import ZArith List Bool Lia.
From Verif Require Import Rust RustIter RustStr RustLib RustEng RustHost RustTests TextLib TextEng TextEngFacts TextMemFacts TextPrep TextMemClient PropTextMem TextPlanes TextShadow TextCycle TextClient TextIdeal.
Require Verif.Word Verif.Isa Verif.Codec Verif.Glwe Verif.EncMem Verif.MemSpec Verif.MemFacts Verif.MemOps Verif.MemClient Verif.EncFacts Verif.EncCycle Verif.EncEval Verif.Scratch Verif.CycleScratch
  Verif.RepoTests Verif.PropTests Verif.PropText Verif.PropTextTests Verif.PropTextEnc Verif.TextHostRun Verif.TextFheTests.
Module PE := Verif.PropTextEnc.
Module HR := Verif.TextHostRun.
Module FT := Verif.TextFheTests.
Module PT := Verif.PropTests.
Module RT := Verif.RepoTests.
Import ListNotations.
Open Scope Z_scope.

Section Tests.
Context {GL KL SL Src : Type}.
Variables (log : nat) (sp : space GL KL SL) (garbage : Z -> nat -> list Z) (garbage_i64 : Z -> nat -> int I64)
  (gl_n : GL -> Z) (enc dec : Z -> list Z -> list Z) (next : Src -> Src)
  (sw : word_space GL KL SL) (shuffle : list (nat * list Z) -> list (nat * list Z)).
Notation A := (G.Ideal log).
Notation L := (lib A sp garbage garbage_i64 gl_n enc dec next).
Notation N := (eng A sp garbage garbage_i64 gl_n enc dec next sw (ideal_bdd log) G.decrypt_word Bdd.pack_bits shuffle).
Notation mem_of := (mem_of A sp garbage garbage_i64 gl_n enc dec next).
Variables (p : profile) (l : GL) (sl : SL) (kl : KL) (pm : layouts GL SL).
Notation client_ok := (PE.client_ok log sp gl_n enc dec l sl pm).
Notation y := (cycle_costs_at sp sw l sl kl).
Variable (Hs : host L N) (Q : tests L N Hs).
Notation gives := (HR.gives log sp garbage garbage_i64 gl_n enc dec next sw shuffle Hs).
Notation keys_ok := (HR.keys_ok log sp garbage garbage_i64 gl_n enc dec next sw shuffle kl Hs).

(** the encryptions of the tests: nothing panics and the message is the word;
    random words are words *)
Definition tests_ok (avail : Z) : Prop :=
  (forall q0 v xa xe, exists xa' xe', FheUintPrepared_encrypt_sk Q (sl, q0) tt (Int v) tt xa xe avail = Some ((sl, RT.encrypt_prepared v), xa', xe')) /\
  (forall w0 v xa xe, exists xa' xe', FheUint_encrypt_sk Q (l, w0) tt (Int v) tt xa xe avail = Some ((l, G.fhe_of_word v), xa', xe')) /\
  (forall s, exists s' v, Source_next_u32 Q s = Some (s', Int v) /\ Isa.word v).

(** the assertion on a measured noise *)
Definition low_noise (avail : Z) (r : list Z) (v : Z) : bool :=
  match FheUint_noise Q (l, r) tt (Int v) tt avail with
  | Some st => Real_lt Q (Real_log2 Q (Stats_std Q st)) (-16, 0)
  | None => false
  end.

(** [(0..1024)] written into a vector of zeros *)
Definition memory_data : list Z := map Z.of_nat (seq 0 1024).

Lemma put_hit : forall ws a v, (a < length ws)%nat -> nth_error (MS.put_word ws a v) a = Some v.
Proof.
  intros ws a v H. unfold MS.put_word. rewrite nth_error_app2; rewrite firstn_length, Nat.min_l by lia; [|apply le_n].
  rewrite Nat.sub_diag. reflexivity.
Qed.
Lemma store_put : forall ws (a : nat) v, (a < length ws)%nat ->
  store (map (@Int U32) ws) (zi a) (Int v) = Some (map Int (MS.put_word ws a v)).
Proof.
  intros ws a v H. unfold MS.put_word.
  rewrite <- (firstn_skipn a ws) at 1. rewrite !map_app.
  destruct (skipn a ws) as [|x r] eqn:E.
  { exfalso. assert (K : length (skipn a ws) = 0%nat) by now rewrite E. rewrite skipn_length in K. lia. }
  assert (LA : length (map (@Int U32) (firstn a ws)) = a) by (rewrite map_length, firstn_length, Nat.min_l by lia; reflexivity).
  cbn [map]. rewrite <- LA at 2. rewrite store_app. do 3 f_equal.
  assert (SK : forall (ws : list Z) a x r, skipn a ws = x :: r -> skipn (Datatypes.S a) ws = r).
  { clear. intros ws. induction ws as [|w ws IH]; intros [|a] x r E; cbn in *; try discriminate; [congruence|]. apply (IH a x r E). }
  rewrite (SK ws a x r E). reflexivity.
Qed.
Lemma index_words : forall (ws : list Z) n x, nth_error ws n = Some x -> index (map (@Int U32) ws) (zi n) = Some (Int x).
Proof. intros ws n x H. rewrite index_zi. rewrite nth_error_map, H. reflexivity. Qed.

Ltac head tac := lazymatch goal with |- match ?x with _ => _ end = _ => tac x end.
Ltac keys := lazymatch goal with HK : keys_ok |- match ?x with _ => _ end = _ =>
  let K1 := fresh in let K2 := fresh in let K3 := fresh in let K4 := fresh in let K5 := fresh in
  pose proof HK as (K1 & K2 & K3 & K4 & K5);
  lazymatch x with
  | GLWESecret_fill_ternary_prob _ ?a ?b ?c => specialize (K1 a b c); destruct x as [[? ?]|]; [|destruct (K1 eq_refl)]
  | LWESecret_fill_binary_block _ ?a ?b ?c => specialize (K2 a b c); destruct x as [[? ?]|]; [|destruct (K2 eq_refl)]
  | Secret_prepare _ ?a ?b ?c => specialize (K3 a b c); destruct x as [[]|]; [|destruct (K3 eq_refl)]
  | VMKeys_encrypt_sk _ ?a ?b ?c ?d ?e => specialize (K4 a b c d e); destruct x as [[[? ?] ?]|]; [|destruct (K4 eq_refl)]
  | Keys_prepare _ ?a ?b ?c ?d => rewrite (K5 a b c d)
  end; clear K1 K2 K3 K4 K5; cbv iota beta zeta end.

Ltac encr T := lazymatch goal with |- match ?f ?Q ?w _ ?v _ ?a ?e ?s with _ => _ end = _ =>
  let E := fresh in let a' := fresh "xa" in let e' := fresh "xe" in destruct (T (val v) a e) as (a' & e' & E);
  lazymatch goal with |- match ?x with _ => _ end = _ => lazymatch type of E with _ = ?rhs => replace x with rhs by (symmetry; exact E) end end; clear E; cbv iota beta zeta end.
(* the decryption of a word, and the comparison *)
Ltac dcr D := lazymatch goal with DN : Sc.need ?a _ <> None |- match ?x with _ => _ end = _ =>
  lazymatch type of D with MS.enc_of ?r ?v =>
    replace x with (Some (@Int U32 v)) by (symmetry; etransitivity; [exact (decrypt_text A sp garbage garbage_i64 gl_n enc dec next sw (ideal_bdd log) G.decrypt_word Bdd.pack_bits shuffle l a r)|];
      rewrite (EncFacts.enc_decrypt _ _ D); destruct (Sc.need a (w_dec sw l)); [reflexivity|destruct (DN eq_refl)]) end end;
  cbv iota beta;
  lazymatch goal with |- (if ?b then _ else _) = _ => replace b with true by (symmetry; apply Z.eqb_refl) end; cbv iota beta.
Ltac nz r v := lazymatch goal with |- match ?x with _ => _ end = ?rhs => lazymatch rhs with context[low_noise ?a r v] =>
    unfold low_noise at 1; change x with (FheUint_noise Q (l, r) tt (@Int U32 v) tt a); destruct (FheUint_noise Q (l, r) tt (@Int U32 v) tt a) as [?st|] end end; cbv iota beta; [|reflexivity];
  lazymatch goal with |- (if ?b then _ else _) = _ => destruct b end; cbn [andb]; cbv iota beta; [|reflexivity].

Lemma memory_text : forall a24, a24 = 2 ^ 24 -> client_ok a24 -> gives a24 -> keys_ok -> CryptographicParameters_new Hs = pm ->
  (log <= 62)%nat -> tests_ok a24 -> sizes_at sp l l sl kl ->
  let c := costs_at sp l l sl kl in
  0 <= Sc.stateless_bytes c -> bytes_fit 1 (Sc.stateless_bytes c) -> Sc.read_stateless_space c 1 a24 <> None ->
  bytes_fit 1 (Sc.rev_bytes c (Z.of_nat log) 10 + s_glwe sp l) ->
  Sc.read_statefull_space c (Z.of_nat log) 10 1 a24 <> None -> Sc.read_statefull_rev_space c (Z.of_nat log) 10 1 a24 <> None ->
  Sc.need a24 (w_dec sw l) <> None ->
  exists r1 r2 r3 v, MS.enc_of r1 512 /\ MS.enc_of r2 512 /\ MS.enc_of r3 v /\ Isa.word v /\
    FT.memory_test_fhe_ram L N Hs Q p = if low_noise a24 r1 512 && low_noise a24 r2 512 && low_noise a24 r3 v then Some tt else None.
Proof.
  intros a24 E24 CO (s24 & G1 & G2) HK PM HL (T1 & T2 & T3) SZ c B1 B2 S1 B3 S2 S3 DN.
  pose proof CO as (P1 & P2 & P3 & P4 & P5 & P6 & P7 & P8 & P9 & P10 & P11 & P12).
  (* the word that is drawn *)
  destruct (T3 (Source_new Hs (filled (lit 5) (lit 32)))) as (sd & v0 & D0 & WV).
  (* the memory *)
  destruct (MemClient.alloc_shaped log 1024 ltac:(lia)) as (m0 & M0 & H0).
  pose proof (MemClient.holds_shaped log _ _ H0) as SH. rewrite repeat_length in SH.
  assert (FD : Forall MS.is_word memory_data).
  { unfold memory_data. apply Forall_forall. intros x H. apply in_map_iff in H as (k & <- & H). apply in_seq in H. unfold MS.is_word. lia. }
  assert (LD : length memory_data = 1024%nat) by (unfold memory_data; now rewrite map_length, seq_length).
  pose proof (MemClient.encrypt_eq log 1024 m0 memory_data SH FD) as E. rewrite LD in E.
  rewrite (proj2 (Nat.leb_le _ _)) in E by (apply Nat.div_le_upper_bound; lia). destruct E as (m1 & M1 & H1).
  assert (PD : MemClient.padded 1024 memory_data = memory_data).
  { unfold MemClient.padded. rewrite firstn_app, LD, Nat.sub_diag, firstn_O, app_nil_r. rewrite <- LD. apply firstn_all. }
  rewrite PD in H1. clear PD.
  assert (BT : forall m ws, MS.holds log m ws -> length ws = 1024%nat -> M.m_bits m = 10%nat).
  { intros m ws (_ & B & _) Lw. rewrite Lw in B. injection B as B. symmetry. exact B. }
  assert (AD : forall m, M.m_bits m = 10%nat -> MS.addresses (RT.encrypt_prepared 512) 0 (M.m_bits (m : M.memory (list Z))) 512).
  { intros m ->. split; [cbn; lia|]. split; [apply Nat.ltb_lt; vm_compute; reflexivity|].
    intros i HI. do 10 (destruct i as [|i]; [reflexivity|]). lia. }
  assert (W1 : MS.is_word v0) by exact WV.
  assert (LP : length (MS.put_word memory_data 512 v0) = 1024%nat) by (rewrite MemOps.put_word_length; rewrite LD; lia).
  pose proof (fun m ws (HM : MS.holds log m ws) (HW : length ws = 1024%nat) r0 => C97_array log sp garbage garbage_i64 gl_n enc dec next p l sl kl m ws 1 (RT.encrypt_prepared 512) 0 512
    (G.fhe_of_word v0) v0 r0 a24 HM ltac:(rewrite HW; reflexivity) ltac:(rewrite HW; lia) ltac:(lia) (AD m (BT m ws HM HW)) ltac:(change (2 ^ 64) with 18446744073709551616; lia)
    (EncFacts.enc_word _ W1) SZ) as AR.
  cbv zeta in AR. fold c in AR.
  assert (N512 : nth 512 memory_data 0 = 512) by reflexivity.
  destruct (proj1 (AR m1 memory_data H1 LD (G.a_fzero A)) B1 B2 S1) as (r1 & R1 & D1). rewrite N512 in D1.
  pose proof (proj2 (proj2 (AR m1 memory_data H1 LD r1))) as X2. rewrite (BT m1 _ H1 LD) in X2.
  destruct (X2 B3 S2 S3) as (m2 & r2 & m3 & R2 & D2 & R3 & H3). clear X2. rewrite N512 in D2.
  destruct (proj1 (AR m3 _ H3 LP r2) B1 B2 S1) as (r3 & R4 & D3).
  rewrite (nth_error_nth _ _ 0 (put_hit memory_data 512 v0 ltac:(rewrite LD; lia))) in D3.
  exists r1, r2, r3, v0. split; [exact D1|]. split; [exact D2|]. split; [exact D3|]. split; [exact WV|].
  unfold FT.memory_test_fhe_ram. rewrite PM. cbv zeta.
  keys. keys. keys.
  head ltac:(fun x => change x with (Some (@Int USize (2 ^ 24)))). rewrite <- E24. cbv iota beta. rewrite G1. cbv iota beta.
  rewrite G2. keys. keys.
  head ltac:(fun x => change x with (Some (@Int U64 (2 ^ 32)))). cbv iota beta.
  head ltac:(fun x => change x with (Some (@Int U64 (2 ^ 32 - 1)))). cbv iota beta.
  assert (I2 : CryptographicParameters_ram_infos N pm = l) by exact P2.
  assert (I3 : CryptographicParameters_fhe_uint_infos N pm = l) by exact P3.
  assert (I4 : CryptographicParameters_fhe_uint_prepared_infos N pm = sl) by exact P4.
  rewrite I2, I3, I4. 
  head ltac:(fun x => replace x with (Some (mem_of l m0))).
  2: { symmetry. etransitivity; [exact (C97_alloc A sp garbage garbage_i64 gl_n enc dec next p l 32 1024 P5 ltac:(lia) ltac:(reflexivity))|].
       rewrite M0. reflexivity. }
  cbv iota beta.
  assert (Z0 : M.m_size m0 = 1024%nat) by (destruct SH as (Z0 & _); exact Z0).
  head ltac:(fun x => replace x with (Some (@Int USize 1024)) by (symmetry; change x with (Some (@zi (M.m_size m0))); rewrite Z0; reflexivity)). cbv iota beta.
  head ltac:(fun x => replace x with (Some (map (fun i => (@Int USize (Z.of_nat i), @Int U32 (Z.of_nat i))) (seq 0 1024), tt)) by (vm_compute; reflexivity)).
  cbv iota beta.
  lazymatch goal with |- context[write_back ?d ?e] => replace (write_back d e) with (map (@Int U32) memory_data) by (vm_compute; reflexivity) end.
  head ltac:(fun x => lazymatch x with TextMem.Memory_encrypt_sk _ _ _ _ _ _ ?a ?e _ =>
    pose proof (mem_enc A sp garbage garbage_i64 gl_n enc dec next p l P6 P8 P9 a24 P11 m0 memory_data a e (PE.alloc_some A 32 1024 m0 ltac:(lia) M0)) as EN end).
  change (G.log_n A) with log in EN. rewrite M1 in EN. cbn [option_map] in EN.
  head ltac:(fun x => lazymatch type of EN with _ = ?rhs => replace x with rhs by (symmetry; exact EN) end). clear EN. cbv iota beta zeta.
  encr (T1 (repeat (G.a_pzero A) 32)).
  head ltac:(fun x => replace x with (Some (mem_of l m1, (l, r1))) by (symmetry; exact R1)). cbv iota beta.
  assert (X1 : index (map (@Int U32) memory_data) (cast USize (@lit U32 512)) = Some (Int 512)) by (vm_compute; reflexivity).
  rewrite X1. cbv iota beta.
  dcr D1. nz r1 512.
  head ltac:(fun x => replace x with (Some (mem_of l m2, (l, r2))) by (symmetry; exact R2)). cbv iota beta.
  dcr D2. nz r2 512.
  rewrite D0. cbv iota beta.
  assert (MK : band (@Int U32 v0) (cast U32 (@Int U64 (2 ^ 32 - 1))) = Int v0).
  { unfold band. cbn [val cast]. f_equal. change (Z.land v0 4294967295 = v0). change 4294967295 with (Z.ones 32). rewrite Z.land_ones by lia. apply Z.mod_small. exact WV. }
  rewrite MK. clear MK.
  encr (T2 (G.a_fzero A)).
  head ltac:(fun x => replace x with (Some (map (@Int U32) (MS.put_word memory_data 512 v0))) by (symmetry; apply (store_put memory_data 512 v0); rewrite LD; lia)).
  cbv iota beta.
  head ltac:(fun x => replace x with (Some (mem_of l m3)) by (symmetry; exact R3)). cbv iota beta.
  head ltac:(fun x => replace x with (Some (mem_of l m3, (l, r3))) by (symmetry; exact R4)). cbv iota beta.
  assert (X2 : index (map (@Int U32) (MS.put_word memory_data 512 v0)) (cast USize (@lit U32 512)) = Some (Int v0))
    by (apply (index_words _ 512), put_hit; rewrite LD; lia).
  rewrite X2. cbv iota beta. dcr D3. nz r3 v0.
  assert (Z3 : M.m_size m3 = 1024%nat) by (rewrite <- LP; destruct H3 as (Z3 & _); exact Z3).
  head ltac:(fun x => replace x with (Some (@Int USize 1024)) by (symmetry; change x with (Some (@zi (M.m_size m3))); rewrite Z3; reflexivity)). cbv iota beta.
  assert (ZW : Forall MS.is_word (repeat 0 1024)) by (apply Forall_forall; intros x HX; apply repeat_spec in HX; subst x; unfold MS.is_word; clear; lia).
  pose proof (PE.decrypt_holds log sp garbage garbage_i64 gl_n enc dec next p l sl 0%nat pm a24 m3 _ (repeat 0 1024) CO H3 ZW) as DH.
  rewrite (EncCycle.decrypt_all log m3 _ 1024 H3 LP) in DH. cbn [option_map] in DH.
  head ltac:(fun x => lazymatch type of DH with _ = ?rhs => replace x with rhs by (symmetry; etransitivity; [|exact DH]; f_equal; apply filled_text) end).
  cbv iota beta. rewrite X2. cbv iota beta.
  lazymatch goal with |- (if ?b then _ else _) = _ => replace b with true by (symmetry; apply Z.eqb_refl) end. reflexivity.
Qed.

Lemma prepared_len : forall v, length (RT.encrypt_prepared v) = 32%nat.
Proof. intro v. unfold RT.encrypt_prepared. now rewrite map_length, seq_length. Qed.

Lemma ram_offset_test_text : forall a24, a24 = 2 ^ 24 -> client_ok a24 -> gives a24 -> keys_ok -> CryptographicParameters_new Hs = pm ->
  tests_ok a24 -> Y.circuit_space y (Y.y_offset y 4) a24 <> None -> Sc.need a24 (w_dec sw l) <> None ->
  FT.ram_offset_test_ram_offset L N Hs Q p = RT.test_ram_offset log 0x40fe0 0x1c.
Proof.
  intros a24 E24 CO (s24 & G1 & G2) HK PM (T1 & T2 & T3) SP DN.
  pose proof CO as (P1 & P2 & P3 & P4 & _).
  unfold FT.ram_offset_test_ram_offset. rewrite PM. cbv zeta.
  head ltac:(fun x => change x with (Some (@Int USize (2 ^ 24)))). rewrite <- E24. cbv iota beta. rewrite G1. cbv iota beta.
  rewrite G2. keys. keys. keys.
  assert (I3 : CryptographicParameters_fhe_uint_infos N pm = l) by exact P3.
  assert (I4 : CryptographicParameters_fhe_uint_prepared_infos N pm = sl) by exact P4.
  rewrite I3, I4.
  head ltac:(fun x => change x with (Some (@Int U32 262144))). cbv iota beta.
  encr (T1 (repeat (G.a_pzero A) 32)). encr (T1 (repeat (G.a_pzero A) 32)).
  keys. keys.
  pose proof (ram_offset_text A sp garbage garbage_i64 gl_n enc dec next sw (ideal_bdd log) G.decrypt_word Bdd.pack_bits shuffle p l sl kl (ideal_circuits log)
    (G.a_fzero A) _ _ 4 a24 (prepared_len 0x40fe0) (prepared_len 0x1c)) as RO.
  destruct (Y.circuit_space y (Y.y_offset y 4) a24); [|destruct (SP eq_refl)].
  head ltac:(fun x => lazymatch type of RO with _ = ?rhs => replace x with rhs by (symmetry; exact RO) end). clear RO. cbv iota beta.
  head ltac:(fun x => replace x with (Some (@Int U32 (G.decrypt_word (EncEval.ram_offset_enc A (RT.encrypt_prepared 0x40fe0) (RT.encrypt_prepared 0x1c)))))
     by (symmetry; etransitivity; [exact (decrypt_text A sp garbage garbage_i64 gl_n enc dec next sw (ideal_bdd log) G.decrypt_word Bdd.pack_bits shuffle l a24 _)|];
      destruct (Sc.need a24 (w_dec sw l)); [reflexivity|destruct (DN eq_refl)])).
  cbv iota beta. reflexivity.
Qed.

(** four words for each case, drawn one after the other *)
Fixpoint drawn (s : Src) (ds : list RT.draw) (s' : Src) : Prop :=
  match ds with
  | [] => s' = s
  | (pc, im, x, z) :: r => exists s1 s2 s3 s4,
      Source_next_u32 Q s = Some (s1, Int pc) /\ Source_next_u32 Q s1 = Some (s2, Int im) /\
      Source_next_u32 Q s2 = Some (s3, Int x) /\ Source_next_u32 Q s3 = Some (s4, Int z) /\ drawn s4 r s'
  end.
Lemma draws_exist : (forall s, exists s' v, Source_next_u32 Q s = Some (s', Int v) /\ Isa.word v) ->
  forall n s, exists ds s', drawn s ds s' /\ length ds = n /\ Forall PT.is_draw ds.
Proof.
  intro T3. induction n as [|n IH]; intro s.
  - exists [], s. repeat split. constructor.
  - destruct (T3 s) as (s1 & v1 & E1 & W1), (T3 s1) as (s2 & v2 & E2 & W2), (T3 s2) as (s3 & v3 & E3 & W3), (T3 s3) as (s4 & v4 & E4 & W4).
    destruct (IH s4) as (ds & s' & D & LN & F). exists ((v1, v2, v3, v4) :: ds), s'. split; [|split; [cbn; now rewrite LN|]].
    + cbn [drawn]. exists s1, s2, s3, s4. auto.
    + constructor; [|exact F]. cbn. auto.
Qed.
Lemma build_bind : forall {X} dbg c cs d ds (K : list RT.pcu -> option X),
  match RT.pc_build dbg (c :: cs) (d :: ds) with Some us => K us | None => None end =
  match RT.pc_case dbg c d with
  | Some u => match RT.pc_build dbg cs ds with Some us => K (u :: us) | None => None end
  | None => None end.
Proof. intros. cbn [RT.pc_build]. destruct (RT.pc_case dbg c d); [|reflexivity]. destruct (RT.pc_build dbg cs ds); reflexivity. Qed.

Definition pc_words (u : RT.pcu) : Prop := Isa.word (RT.u_rs1 u) /\ Isa.word (RT.u_rs2 u).
Lemma case_words : forall dbg c d u, PT.is_draw d -> RT.pc_case dbg c d = Some u -> pc_words u.
Proof.
  intros dbg c d u D E. destruct (PT.case_ok dbg c d D) as [(_ & _ & E')|(_ & u' & E' & _ & _ & _ & W1 & W2 & _)]; [congruence|].
  assert (u' = u) by congruence. subst u'. split; assumption.
Qed.
Notation pst := (Src * Src * (SL * list bool) * (SL * list bool) * (SL * list bool) * (SL * list bool) * (SL * list bool) * (GL * list Z))%type.
Lemma pc_loop : forall (body : TextInstrTests.PCU -> pst -> option pst),
  (forall u xa xe q1 q2 q3 q4 q5 w, pc_words u ->
    (RT.pc_check log u = Some tt /\ exists xa' xe' r1 r2 r3 r4 r5 w',
       body (PropTextTests.pcu_of u) (xa, xe, (sl, q1), (sl, q2), (sl, q3), (sl, q4), (sl, q5), (l, w)) =
       Some (xa', xe', (sl, r1), (sl, r2), (sl, r3), (sl, r4), (sl, r5), (l, w'))) \/
    (RT.pc_check log u = None /\ body (PropTextTests.pcu_of u) (xa, xe, (sl, q1), (sl, q2), (sl, q3), (sl, q4), (sl, q5), (l, w)) = None)) ->
  forall us xa xe q1 q2 q3 q4 q5 w, Forall pc_words us ->
  match for_each (map PropTextTests.pcu_of us) body (xa, xe, (sl, q1), (sl, q2), (sl, q3), (sl, q4), (sl, q5), (l, w)) with
  | Some (_, _, _, _, _, _, _, _) => Some tt | None => None end = RT.all_pass (RT.pc_check log) us.
Proof.
  intros body HB. induction us as [|u us IH]; intros xa xe q1 q2 q3 q4 q5 w F; [reflexivity|].
  inversion F as [|? ? F1 F2]; subst. cbn [map for_each RT.all_pass].
  destruct (HB u xa xe q1 q2 q3 q4 q5 w F1) as [(E & xa' & xe' & r1 & r2 & r3 & r4 & r5 & w' & E')|(E & E')]; rewrite E, E'; [|reflexivity].
  apply IH, F2.
Qed.

Lemma pc_test_text : forall a24, a24 = 2 ^ 24 -> client_ok a24 -> gives a24 -> keys_ok -> CryptographicParameters_new Hs = pm ->
  tests_ok a24 -> Y.circuit_space y (Y.y_pcu y 2) a24 <> None -> Sc.need a24 (w_dec sw l) <> None ->
  exists s ds s', drawn s ds s' /\ length ds = 15%nat /\ Forall PT.is_draw ds /\
  FT.pc_update_test_pc_update L N Hs Q p = RT.test_pc_update log (overflow_checks p) ds.
Proof.
  intros a24 E24 CO (s24 & G1 & G2) HK PM (T1 & T2 & T3) SP DN.
  pose proof CO as (P1 & P2 & P3 & P4 & _).
  lazymatch goal with |- exists s ds s', drawn s ds s' /\ _ /\ _ /\ ?lhs = _ => remember lhs as LHS eqn:EL end.
  unfold FT.pc_update_test_pc_update in EL. rewrite PM in EL. cbv zeta in EL.
  Ltac keys_in EL HK := lazymatch type of EL with _ = match ?x with _ => _ end =>
    let K1 := fresh in let K2 := fresh in let K3 := fresh in let K4 := fresh in let K5 := fresh in
    pose proof HK as (K1 & K2 & K3 & K4 & K5);
    lazymatch x with
    | GLWESecret_fill_ternary_prob _ ?a ?b ?c => specialize (K1 a b c); destruct x as [[? ?]|]; [|destruct (K1 eq_refl)]
    | LWESecret_fill_binary_block _ ?a ?b ?c => specialize (K2 a b c); destruct x as [[? ?]|]; [|destruct (K2 eq_refl)]
    | Secret_prepare _ ?a ?b ?c => specialize (K3 a b c); destruct x as [[]|]; [|destruct (K3 eq_refl)]
    | VMKeys_encrypt_sk _ ?a ?b ?c ?d ?e => specialize (K4 a b c d e); destruct x as [[[? ?] ?]|]; [|destruct (K4 eq_refl)]
    | Keys_prepare _ ?a ?b ?c ?d => rewrite (K5 a b c d) in EL
    end; clear K1 K2 K3 K4 K5; cbv iota beta zeta in EL end.
  lazymatch type of EL with _ = match ?x with _ => _ end => change x with (Some (@Int USize (2 ^ 24))) in EL end.
  rewrite <- E24 in EL. cbv iota beta in EL. rewrite G1 in EL. cbv iota beta in EL. rewrite G2 in EL.
  keys_in EL HK. keys_in EL HK. keys_in EL HK. keys_in EL HK. keys_in EL HK.
  assert (I3 : CryptographicParameters_fhe_uint_infos N pm = l) by exact P3.
  assert (I4 : CryptographicParameters_fhe_uint_prepared_infos N pm = sl) by exact P4.
  rewrite I3, I4 in EL.
  lazymatch type of EL with _ = match ?x with _ => _ end => change x with (Some (PropTextTests.pcu_of (RT.pcu_new Codec.PBEQ))) in EL end.
  cbv iota beta in EL.
  lazymatch type of EL with _ = match Source_next_u32 Q ?s with _ => _ end => destruct (draws_exist T3 15 s) as (ds & s' & D & LN & FD); exists s, ds, s' end.
  split; [exact D|]. split; [exact LN|]. split; [exact FD|]. rewrite EL. clear EL LHS.
  unfold RT.test_pc_update, RT.pc_cases.
  (* the remaining steps of the text, behind a name *)
  Ltac draws_of D ds FD := destruct ds as [|[[[?pc ?im] ?x] ?z] ds]; [discriminate|];
    let s1 := fresh in let s2 := fresh in let s3 := fresh in let s4 := fresh in
    let E1 := fresh in let E2 := fresh in let E3 := fresh in let E4 := fresh in
    destruct D as (s1 & s2 & s3 & s4 & E1 & E2 & E3 & E4 & D);
    let FB := fresh in apply Forall_cons_iff in FD; destruct FD as [FA FB]; rename FB into FD;
    rewrite E1; cbv iota beta;
    lazymatch goal with |- match TextInstrTests.PCU_u_pc _ (PropTextTests.pcu_of ?u) (Int ?v) with _ => _ end = _ =>
      lazymatch goal with |- match ?x with _ => _ end = _ => change x with (Some (PropTextTests.pcu_of (RT.set_pc u v))) end end; cbv iota beta;
    rewrite E2; cbv iota beta;
    lazymatch goal with |- match TextInstrTests.PCU_u_imm _ (PropTextTests.pcu_of ?u) (Int ?v) with _ => _ end = _ =>
      lazymatch goal with |- match ?x with _ => _ end = _ => replace x with (Some (PropTextTests.pcu_of (RT.set_imm u v))) by (symmetry; apply PropTextTests.C103_pcu_fields; exact Codec.PNONE) end end; cbv iota beta;
    rewrite E3; cbv iota beta;
    lazymatch goal with |- match TextInstrTests.PCU_u_rs1 _ (PropTextTests.pcu_of ?u) (Int ?v) with _ => _ end = _ =>
      lazymatch goal with |- match ?x with _ => _ end = _ => change x with (Some (PropTextTests.pcu_of (RT.set_rs1 u v))) end end; cbv iota beta;
    rewrite E4; cbv iota beta;
    lazymatch goal with |- match TextInstrTests.PCU_u_rs2 _ (PropTextTests.pcu_of ?u) (Int ?v) with _ => _ end = _ =>
      lazymatch goal with |- match ?x with _ => _ end = _ => change x with (Some (PropTextTests.pcu_of (RT.set_rs2 u v))) end end; cbv iota beta;
    clear E1 E2 E3 E4.
  Ltac adjust_of a FA := rewrite build_bind; lazymatch goal with |- match ?f with _ => _ end = match ?m with _ => _ end =>
    replace f with (option_map PropTextTests.pcu_of m) by (symmetry; refine (PropTextTests.C103_pcu_adjust p a _ _ _); apply FA);
    let U := fresh in let u := fresh "u" in destruct m as [u|] eqn:U; [apply (case_words _ _ _ _ FA) in U|reflexivity] end; clear FA; cbn [option_map]; cbv iota beta.
  Ltac plain_of FA := rewrite build_bind; lazymatch goal with |- _ = match ?m with _ => _ end =>
    let U := fresh in let u := fresh "u" in destruct m as [u|] eqn:U; [|discriminate U]; 
    let U2 := fresh in pose proof U as U2; injection U2 as U2; rewrite U2; clear U2;
    apply (case_words _ _ _ _ FA) in U end; clear FA; cbv iota beta.
  Ltac new_pcu o := lazymatch goal with |- match Source_next_u32 _ _ with _ => _ end = _ => idtac
    | |- match ?x with _ => _ end = _ => change x with (Some (PropTextTests.pcu_of (RT.pcu_new o))) end; cbv iota beta.
  draws_of D ds FD. adjust_of RT.Adj_eq FA.
  new_pcu Codec.PBEQ. draws_of D ds FD. adjust_of RT.Adj_lt FA.
  new_pcu Codec.PBNE. draws_of D ds FD. adjust_of RT.Adj_lt FA.
  new_pcu Codec.PBNE. draws_of D ds FD. adjust_of RT.Adj_eq FA.
  new_pcu Codec.PBLTU. draws_of D ds FD. adjust_of RT.Adj_lt FA.
  new_pcu Codec.PBLTU. draws_of D ds FD. adjust_of RT.Adj_gte FA.
  new_pcu Codec.PBGEU. draws_of D ds FD. adjust_of RT.Adj_gte FA.
  new_pcu Codec.PBGEU. draws_of D ds FD. adjust_of RT.Adj_lt FA.
  new_pcu Codec.PBLT. draws_of D ds FD. adjust_of RT.Adj_lt_signed FA.
  new_pcu Codec.PBLT. draws_of D ds FD. adjust_of RT.Adj_gte_signed FA.
  new_pcu Codec.PBGE. draws_of D ds FD. adjust_of RT.Adj_gte_signed FA.
  new_pcu Codec.PBGE. draws_of D ds FD. adjust_of RT.Adj_lt_signed FA.
  new_pcu Codec.PJAL. draws_of D ds FD. plain_of FA.
  new_pcu Codec.PJALR. draws_of D ds FD. plain_of FA.
  new_pcu Codec.PNONE. draws_of D ds FD. plain_of FA.
  cbn [RT.pc_build].
  lazymatch goal with |- match for_each ?us ?b ?st with _ => _ end = RT.all_pass _ ?ms =>
    refine (pc_loop b _ ms _ _ _ _ _ _ _ _ _) end.
  2: { repeat (apply Forall_cons; [assumption|]). apply Forall_nil. }
  clear - T1 DN SP.
  intros u xa xe q1 q2 q3 q4 q5 w (W1 & W2). cbv beta iota.
  destruct (T1 q1 (RT.u_rs1 u) xa xe) as (xa1 & xe1 & E1). destruct (T1 q2 (RT.u_rs2 u) xa1 xe1) as (xa2 & xe2 & E2).
  destruct (T1 q3 (RT.u_imm u) xa2 xe2) as (xa3 & xe3 & E3). destruct (T1 q4 (RT.u_pc u) xa3 xe3) as (xa4 & xe4 & E4).
  destruct (T1 q5 (Codec.pc_id (RT.u_op u)) xa4 xe4) as (xa5 & xe5 & E5).
  set (pc' := EncEval.update_pc_enc A (RT.encrypt_prepared (RT.u_rs1 u)) (RT.encrypt_prepared (RT.u_rs2 u)) (RT.encrypt_prepared (RT.u_pc u))
    (RT.encrypt_prepared (RT.u_imm u)) (RT.encrypt_prepared (Codec.pc_id (RT.u_op u)))).
  lazymatch goal with |- (_ /\ exists xa' xe' r1 r2 r3 r4 r5 w', ?b = _) \/ _ =>
    assert (B : b = if RT.expected_update u =? G.decrypt_word pc' then
      Some (xa5, xe5, (sl, RT.encrypt_prepared (RT.u_rs1 u)), (sl, RT.encrypt_prepared (RT.u_rs2 u)), (sl, RT.encrypt_prepared (RT.u_imm u)),
        (sl, RT.encrypt_prepared (RT.u_pc u)), (sl, RT.encrypt_prepared (Codec.pc_id (RT.u_op u))), (l, pc')) else None) end.
  { head ltac:(fun x => lazymatch type of E1 with _ = ?rhs => replace x with rhs by (symmetry; exact E1) end). cbv iota beta.
    head ltac:(fun x => lazymatch type of E2 with _ = ?rhs => replace x with rhs by (symmetry; exact E2) end). cbv iota beta.
    head ltac:(fun x => lazymatch type of E3 with _ = ?rhs => replace x with rhs by (symmetry; exact E3) end). cbv iota beta.
    head ltac:(fun x => lazymatch type of E4 with _ = ?rhs => replace x with rhs by (symmetry; exact E4) end). cbv iota beta.
    assert (ID : cast U32 (TextInstr.PC_UPDATE_discriminant (TextInstrTests.PCU_op_type (PropTextTests.pcu_of u))) = Int (Codec.pc_id (RT.u_op u)))
      by (destruct u as [[] ? ? ? ?]; reflexivity).
    rewrite ID. clear ID.
    head ltac:(fun x => lazymatch type of E5 with _ = ?rhs => replace x with rhs by (symmetry; exact E5) end). cbv iota beta.
    pose proof (update_pc_text A sp garbage garbage_i64 gl_n enc dec next sw (ideal_bdd log) G.decrypt_word Bdd.pack_bits shuffle p l sl kl (ideal_circuits log)
      w _ _ _ _ _ 2 a24 (prepared_len (RT.u_rs1 u)) (prepared_len (RT.u_rs2 u)) (prepared_len (RT.u_pc u)) (prepared_len (RT.u_imm u)) (prepared_len (Codec.pc_id (RT.u_op u)))) as UP.
    destruct (Y.circuit_space y (Y.y_pcu y 2) a24); [|destruct (SP eq_refl)].
    head ltac:(fun x => lazymatch type of UP with _ = ?rhs => replace x with rhs by (symmetry; exact UP) end). cbv iota beta. clear UP.
    rewrite PropTextTests.C103_pcu_expected by assumption. cbv iota beta.
    head ltac:(fun x => replace x with (Some (@Int U32 (G.decrypt_word pc')))
      by (symmetry; etransitivity; [exact (decrypt_text A sp garbage garbage_i64 gl_n enc dec next sw (ideal_bdd log) G.decrypt_word Bdd.pack_bits shuffle l a24 _)|];
      destruct (Sc.need a24 (w_dec sw l)); [reflexivity|destruct (DN eq_refl)])).
    cbv iota beta. reflexivity. }
  unfold RT.pc_check. fold pc'. rewrite B. destruct (RT.expected_update u =? G.decrypt_word pc').
  - left. split; [reflexivity|]. do 8 eexists. reflexivity.
  - right. split; reflexivity.
Qed.
End Tests.
