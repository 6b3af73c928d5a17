(** * C86, C87: what the published VM gives away *)
Require Import ZArith List Bool Lia Arith.
Require Import Verif.Word Verif.Isa Verif.ListFacts Verif.Glwe Verif.GlweFacts Verif.EncMem Verif.MemSpec Verif.EncVM Verif.Loader Verif.LoadSpec Verif.RunSpec
  Verif.TestRunSpec Verif.LoadRun Verif.Seeds Verif.SeedSpec.
Require Verif.DebugVM Verif.MemFacts Verif.MemClient Verif.EncSpec Verif.EncCycle Verif.EncTrack Verif.EncLoad Verif.EncRun Verif.PropLoad.
Import ListNotations.
Open Scope Z_scope.
Ltac Zify.zify_post_hook ::= idtac.

(** ** the loaded memories hold messages *)
Definition messages (log : nat) (m : memory poly) : Prop := Forall (fun b => Forall (message log) (ba_data b)) (m_planes m).
Lemma holds_messages log m ws : holds log m ws -> messages log m.
Proof.
  intros (_ & _ & _ & _ & _ & H). apply Forall_forall. intros b Hb. apply In_nth_error in Hb as [i Hi].
  destruct (H i b Hi) as ((_ & _ & F) & C). apply Forall_forall. intros p Hp. apply In_nth_error in Hp as [j Hj].
  rewrite Forall_forall in F. assert (Lp := F p (nth_error_In _ _ Hj)). split; [exact Lp|].
  apply Forall_forall. intros c Hc. apply In_nth_error in Hc as [q Hq].
  assert (Q : (q < ring log)%nat) by (rewrite <- Lp; eapply nth_error_Some_lt; eauto).
  assert (J : (j < length (ba_data b))%nat) by (eapply nth_error_Some_lt; eauto).
  specialize (C (j * ring log + q)%nat). unfold coef in C.
  rewrite Nat.div_add_l, (Nat.div_small q), Nat.add_0_r in C by lia.
  rewrite Nat.add_comm, Nat.mod_add, (Nat.mod_small q) in C by lia.
  rewrite (nth_error_nth _ _ [] Hj), (nth_error_nth _ _ 0 Hq) in C. rewrite C by nia.
  destruct (Z.testbit _ _); cbn; auto.
Qed.
Lemma started_shows log ph tape ev : started log ph tape ev -> exists rb dbg r,
  (forall k w, nth_error (chunks4 (b_data (boot_rom ph))) k = Some w -> row_of dbg r k w) /\
  EncSpec.shows log rb 10 (ev_vm ev) (EncSpec.xstart (Z.to_nat (Z.shiftr (b_size (boot_rom ph)) 2)) (2 ^ 10) r (chunks4 (input_ram ph tape))) /\
  dec_rom (ev_vm ev) = Some r /\ EncSpec.dec_ram (ev_vm ev) = Some (chunks4 (input_ram ph tape)) /\
  data_of ph tape (chunks4 (input_ram ph tape)) /\ v_rom_size (ev_vm ev) = Z.to_nat (Z.shiftr (b_size (boot_rom ph)) 2) /\
  length (chunks4 (input_ram ph tape)) = (2 ^ 10)%nat /\ input_fits ph tape.
Proof.
  intros (HB & dbg & chk & debug & n & e & HE & HP & EV).
  destruct (enc_boot_inv chk e ph HE HP log dbg debug tape n ev EV HB) as (OK & HF & BO & _).
  destruct (rom_bits chk e ph HE HP (proj1 OK) (proj1 (proj2 OK))) as (rb & RB & Hrb).
  pose proof (enc_fits chk e ph HE HP dbg debug tape rb OK HF HB RB Hrb) as FT.
  destruct (EncRun.boots_shows _ _ _ _ _ _ _ _ _ FT BO) as (r & FI & S & _).
  destruct (rom_chunks chk e ph HE HP (proj1 (proj2 OK))) as (C1 & C2 & C3 & C4).
  destruct (ram_chunks chk e ph HE HP tape HF HB) as (D1 & D2 & D3).
  destruct (input_ram_ok chk e ph HE HP tape HF HB) as (_ & _ & N).
  exists rb, dbg, r. split; [intros k w Hw; exact (fill_row dbg _ _ _ _ FI Hw)|]. split; [exact S|].
  assert (RS : EncSpec.rom_len (v_rom_size (ev_vm ev)) (EncSpec.pad_roms (Z.to_nat (Z.shiftr (b_size (boot_rom ph)) 2)) r)) by apply S.
  split; [|split; [|split; [|split; [|split]]]].
  - rewrite (shows_rom _ _ _ _ _ S). cbn [EncSpec.x_rom EncSpec.xstart]. f_equal. exact (pad_full_roms dbg _ r _ C2 FI C1).
  - rewrite (EncTrack.shows_ram _ _ _ _ _ S). f_equal. cbn [EncSpec.x_ram EncSpec.xstart]. apply EncLoad.table_full. exact D1.
  - unfold data_of. intro i. rewrite D3. apply N.
  - destruct RS as (Q & _). rewrite <- Q. rewrite (pad_full_roms dbg _ r _ C2 FI C1).
    destruct (EncLoad.fill_rows dbg _ C2 r FI) as [_ (RL & _)]. lia.
  - exact D1.
  - exact HF.
Qed.

(** ** opening what was sealed *)
Definition open_memory (L : library) (k : gsecret L) (m : memory (cipher L)) : memory poly :=
  Memory (map (fun b => BitArray (map (decrypt L k) (ba_data b)) (ba_bits b)) (m_planes m)) (m_size m) (m_bits m) (m_state m).
Definition open_roms (L : library) (k : gsecret L) (r : eroms (cipher L)) : eroms poly :=
  ERoms (open_memory L k (e_imm r)) (open_memory L k (e_rs1 r)) (open_memory L k (e_rs2 r)) (open_memory L k (e_rd r))
    (open_memory L k (e_rdu r)) (open_memory L k (e_mu r)) (open_memory L k (e_pcu r)).
(** Make the key again, decrypt everything. *)
Definition attack : procedure (DebugVM.roms * list Z) := fun L p =>
  let k := fst (gen_glwe L (new_source L (repeat 0 32))) in
  let v := {| v_cycle := 0; v_debug := None; v_rom_bits := 0; v_rom_size := pub_rom_size p; v_rom := open_roms L k (pub_rom p);
              v_regs := open_memory L k (pub_ram p); v_ram_bits := 0; v_ram_size := pub_ram_size p;
              v_ram := open_memory L k (pub_ram p); v_pc := []; v_pcp := [] |} in
  do r <- dec_rom v; do w <- EncSpec.dec_ram v; Some (r, w).

Lemma open_list L log k : correct log L -> forall l s, Forall (message log) l ->
  map (decrypt L k) (fst (thread_map (seal_poly L k) l s)) = l.
Proof.
  intro C. induction l as [|m l IH]; intros s F; [reflexivity|]. apply Forall_cons_iff in F as [F1 F2].
  cbn [thread_map]. pose proof (C k m (fst s) (snd s) F1) as D. unfold seal_poly at 1.
  destruct (encrypt L k m (fst s) (snd s)) as [[c xa] xe]. cbn [fst] in D.
  specialize (IH (xa, xe) F2). destruct (thread_map (seal_poly L k) l (xa, xe)) as [cs s2]. cbn [fst map] in *. congruence.
Qed.
Lemma open_planes L log k : correct log L -> forall l s, Forall (fun b => Forall (message log) (ba_data b)) l ->
  map (fun b => BitArray (map (decrypt L k) (ba_data b)) (ba_bits b)) (fst (thread_map (seal_array L k) l s)) = l.
Proof.
  intro C. induction l as [|b l IH]; intros s F; [reflexivity|]. apply Forall_cons_iff in F as [F1 F2].
  cbn [thread_map]. unfold seal_array at 1. pose proof (open_list L log k C (ba_data b) s F1) as D.
  destruct (thread_map (seal_poly L k) (ba_data b) s) as [cs s1]. cbn [fst] in D.
  specialize (IH s1 F2). destruct (thread_map (seal_array L k) l s1) as [bs s2]. cbn [fst map ba_data ba_bits] in *.
  rewrite IH, D. destruct b; reflexivity.
Qed.
Lemma open_seal L log k m s : correct log L -> messages log m -> open_memory L k (fst (seal_memory L k m s)) = m.
Proof.
  intros C M. unfold seal_memory. pose proof (open_planes L log k C (m_planes m) s M) as D.
  destruct (thread_map (seal_array L k) (m_planes m) s) as [bs s2]. unfold open_memory. cbn [fst m_planes m_size m_bits m_state] in *.
  rewrite D. destruct m; reflexivity.
Qed.
Definition rom_messages (log : nat) (r : eroms poly) : Prop :=
  messages log (e_imm r) /\ messages log (e_rs1 r) /\ messages log (e_rs2 r) /\ messages log (e_rd r) /\
  messages log (e_rdu r) /\ messages log (e_mu r) /\ messages log (e_pcu r).
Lemma open_roms_seal L log k r s : correct log L -> rom_messages log r -> open_roms L k (fst (seal_roms L k r s)) = r.
Proof.
  intros C (M1 & M2 & M3 & M4 & M5 & M6 & M7). unfold seal_roms.
  pose proof (open_seal L log k (e_rs1 r) s C M2) as D1. destruct (seal_memory L k (e_rs1 r) s) as [m1 s1].
  pose proof (open_seal L log k (e_rs2 r) s1 C M3) as D2. destruct (seal_memory L k (e_rs2 r) s1) as [m2 s2].
  pose proof (open_seal L log k (e_rd r) s2 C M4) as D3. destruct (seal_memory L k (e_rd r) s2) as [m3 s3].
  pose proof (open_seal L log k (e_imm r) s3 C M1) as D4. destruct (seal_memory L k (e_imm r) s3) as [m4 s4].
  pose proof (open_seal L log k (e_rdu r) s4 C M5) as D5. destruct (seal_memory L k (e_rdu r) s4) as [m5 s5].
  pose proof (open_seal L log k (e_mu r) s5 C M6) as D6. destruct (seal_memory L k (e_mu r) s5) as [m6 s6].
  pose proof (open_seal L log k (e_pcu r) s6 C M7) as D7. destruct (seal_memory L k (e_pcu r) s6) as [m7 s7].
  unfold open_roms. cbn [fst e_imm e_rs1 e_rs2 e_rd e_rdu e_mu e_pcu] in *. rewrite D1, D2, D3, D4, D5, D6, D7. destruct r; reflexivity.
Qed.
Lemma shows_messages log rb mb v s : EncSpec.shows log rb mb v s -> rom_messages log (v_rom v) /\ messages log (v_ram v).
Proof.
  intros ((H1 & H2 & H3 & H4 & H5 & H6 & H7) & _ & _ & _ & _ & _ & _ & _ & H8 & _).
  split; [|exact (holds_messages _ _ _ H8)]. repeat split; eapply holds_messages; eassumption.
Qed.

(** Full statement (README.md:5, "hidden instructions, constants, states"): nothing of the
    encrypted program is learned without the secret key.  It is false: the seeds are
    constants, so that everybody has the key.  One procedure recovers code and RAM, the
    input among it, of every encrypted VM, whatever the library's algorithms are. *)
Theorem C86_hidden_refuted :
  exists a : procedure (DebugVM.roms * list Z),
    forall log L, correct log L -> forall ph tape ev, started log ph tape ev ->
      exists r ram, a L (snd (publish L ev)) = Some (r, ram) /\ code_of ph r /\ data_of ph tape ram.
Proof.
  exists attack. intros log L C ph tape ev ST.
  destruct (started_shows log ph tape ev ST) as (rb & dbg & r & R & S & DR & DM & DA & RS & _).
  exists r, (chunks4 (input_ram ph tape)). split; [|split; [exists dbg; exact R|exact DA]].
  destruct (shows_messages _ _ _ _ _ S) as [MR MM].
  unfold attack, publish, publish_with, phantom_seed.
  destruct (gen_glwe L (new_source L (repeat 0 32))) as [k xs]. cbn [fst]. destruct (gen_lwe L xs) as [kl xs'].
  set (s0 := (new_source L (repeat 0 32), new_source L (repeat 0 32))).
  pose proof (open_roms_seal L log k (v_rom (ev_vm ev)) s0 C MR) as E1.
  destruct (seal_roms L k (v_rom (ev_vm ev)) s0) as [rom s1]. cbn [fst] in E1.
  destruct (gen_keys L kl k (fst s1) (snd s1)) as [[keys xa] xe].
  pose proof (open_seal L log k (v_ram (ev_vm ev)) (xa, xe) C MM) as E2.
  destruct (seal_memory L k (v_ram (ev_vm ev)) (xa, xe)) as [ram s2]. cbn [fst snd pub_rom pub_rom_size pub_ram pub_ram_size] in *.
  rewrite E1, E2. unfold dec_rom, EncSpec.dec_ram, ram_decrypt in *. cbn [v_rom v_rom_size v_ram v_ram_size]. rewrite DR, DM. reflexivity.
Qed.
Print Assumptions C86_hidden_refuted.
(** The key is the same for all programs and inputs. *)
Theorem C86_one_key :
  forall L ev ev', fst (publish L ev) = fst (publish L ev').
Proof.
  intros L ev ev'. unfold publish, publish_with.
  destruct (gen_glwe L (new_source L phantom_seed)) as [k xs]. destruct (gen_lwe L xs) as [kl xs'].
  destruct (seal_roms L k (v_rom (ev_vm ev)) _) as [rom s1]. destruct (seal_roms L k (v_rom (ev_vm ev')) _) as [rom' s1'].
  destruct (gen_keys L kl k (fst s1) (snd s1)) as [[keys xa] xe]. destruct (gen_keys L kl k (fst s1') (snd s1')) as [[keys' xa'] xe'].
  destruct (seal_memory L k (v_ram (ev_vm ev)) (xa, xe)) as [ram s2]. destruct (seal_memory L k (v_ram (ev_vm ev')) (xa', xe')) as [ram' s2'].
  reflexivity.
Qed.
Print Assumptions C86_one_key.

(** ** memories of equal shape *)
Definition same_array (b c : bitarray poly) : Prop := ba_bits b = ba_bits c /\ length (ba_data b) = length (ba_data c).
Definition same_shape (m m' : memory poly) : Prop :=
  m_size m = m_size m' /\ m_bits m = m_bits m' /\ m_state m = m_state m' /\ Forall2 same_array (m_planes m) (m_planes m').
Lemma Forall2_nth {A B} (R : A -> B -> Prop) : forall xs ys, length xs = length ys ->
  (forall i x y, nth_error xs i = Some x -> nth_error ys i = Some y -> R x y) -> Forall2 R xs ys.
Proof.
  induction xs as [|x xs IH]; intros [|y ys] E H; try discriminate; constructor.
  - apply (H 0%nat); reflexivity.
  - apply IH; [now injection E|]. intro i. apply (H (S i)).
Qed.
Lemma shaped_same log n m m' : MemClient.shaped log n m -> MemClient.shaped log n m' -> same_shape m m'.
Proof.
  intros (A1 & A2 & A3 & A4 & A5) (B1 & B2 & B3 & B4 & B5). repeat split; try congruence.
  apply Forall2_nth; [congruence|]. intros i b c Hb Hc. destruct (A5 i b Hb) as (U1 & U2 & _). destruct (B5 i c Hc) as (V1 & V2 & _).
  split; congruence.
Qed.
Lemma holds_same log m m' ws ws' : holds log m ws -> holds log m' ws' -> length ws = length ws' -> same_shape m m'.
Proof. intros H H' E. apply MemClient.holds_shaped in H, H'. rewrite E in H. eapply shaped_same; eassumption. Qed.
Definition same_roms (r r' : eroms poly) : Prop :=
  same_shape (e_imm r) (e_imm r') /\ same_shape (e_rs1 r) (e_rs1 r') /\ same_shape (e_rs2 r) (e_rs2 r') /\ same_shape (e_rd r) (e_rd r') /\
  same_shape (e_rdu r) (e_rdu r') /\ same_shape (e_mu r) (e_mu r') /\ same_shape (e_pcu r) (e_pcu r').
Lemma shows_same log rb rb' mb v v' s s' : EncSpec.shows log rb mb v s -> EncSpec.shows log rb' mb v' s' -> v_rom_size v = v_rom_size v' ->
  same_roms (v_rom v) (v_rom v') /\ same_shape (v_ram v) (v_ram v') /\ v_ram_size v = v_ram_size v'.
Proof.
  intros ((H1 & H2 & H3 & H4 & H5 & H6 & H7) & (L1 & L2 & L3 & L4 & L5 & L6 & L7) & _ & _ & _ & _ & _ & _ & H8 & H9 & H10 & _)
    ((K1 & K2 & K3 & K4 & K5 & K6 & K7) & (M1 & M2 & M3 & M4 & M5 & M6 & M7) & _ & _ & _ & _ & _ & _ & K8 & K9 & K10 & _) E.
  split; [|split; [eapply holds_same; eauto; congruence|congruence]].
  split; [|split; [|split; [|split; [|split; [|split]]]]].
  - exact (holds_same log _ _ _ _ H1 K1 ltac:(rewrite L1, M1; exact E)).
  - exact (holds_same log _ _ _ _ H2 K2 ltac:(rewrite L2, M2; exact E)).
  - exact (holds_same log _ _ _ _ H3 K3 ltac:(rewrite L3, M3; exact E)).
  - exact (holds_same log _ _ _ _ H4 K4 ltac:(rewrite L4, M4; exact E)).
  - exact (holds_same log _ _ _ _ H5 K5 ltac:(rewrite L5, M5; exact E)).
  - exact (holds_same log _ _ _ _ H6 K6 ltac:(rewrite L6, M6; exact E)).
  - exact (holds_same log _ _ _ _ H7 K7 ltac:(rewrite L7, M7; exact E)).
Qed.

(** ** a library whose ciphertexts fit either of two VMs *)
Definition poly_eqb (a b : poly) : bool := if list_eq_dec Z.eq_dec a b then true else false.
Definition swapped (a b m : poly) : poly := if poly_eqb m a then b else if poly_eqb m b then a else m.
Lemma poly_eqb_ok a b : poly_eqb a b = true <-> a = b.
Proof. unfold poly_eqb. destruct (list_eq_dec Z.eq_dec a b); split; congruence. Qed.
Lemma swapped_twice a b m : swapped a b (swapped a b m) = m.
Proof.
  unfold swapped. destruct (poly_eqb m a) eqn:E1.
  - apply poly_eqb_ok in E1. subst m. destruct (poly_eqb b a) eqn:E2; [apply poly_eqb_ok in E2; congruence|].
    replace (poly_eqb b b) with true by (symmetry; now apply poly_eqb_ok). reflexivity.
  - destruct (poly_eqb m b) eqn:E2.
    + apply poly_eqb_ok in E2. subst m. replace (poly_eqb a a) with true by (symmetry; now apply poly_eqb_ok). reflexivity.
    + now rewrite E1, E2.
Qed.
Lemma swapped_left a b : swapped a b a = b.
Proof. unfold swapped. replace (poly_eqb a a) with true by (symmetry; now apply poly_eqb_ok). reflexivity. Qed.
Definition either (P : list (poly * poly)) : library := {|
  source := list Z * list (poly * poly); new_source := fun seed => (seed, P);
  gsecret := bool; gen_glwe := fun s => (hd 0 (fst s) =? 1, s);
  lsecret := unit; gen_lwe := fun s => (tt, s);
  cipher := poly * poly * poly;
  encrypt := fun k m xa xe =>
    match snd xa with
    | (a, b) :: r => ((a, b, if k then swapped a b m else m), (fst xa, r), xe)
    | [] => (([], [], if k then swapped [] [] m else m), xa, xe)
    end;
  decrypt := fun (k : bool) c => let '(a, b, m) := c in if k then swapped a b m else m;
  eval_keys := unit; gen_keys := fun _ _ xa xe => (tt, xa, xe) |}.
Lemma either_correct log P : correct log (either P).
Proof.
  intros k m xa xe _. cbn [encrypt decrypt either]. destruct (snd xa) as [|[a b] r]; cbn [fst]; destruct k; auto; apply swapped_twice.
Qed.
(** the pairs in the order in which they are encrypted *)
Definition pairs_of (m m' : memory poly) : list (poly * poly) :=
  concat (map (fun bc => combine (ba_data (fst bc)) (ba_data (snd bc))) (combine (m_planes m) (m_planes m'))).
Definition pairs_of_roms (r r' : eroms poly) : list (poly * poly) :=
  pairs_of (e_rs1 r) (e_rs1 r') ++ pairs_of (e_rs2 r) (e_rs2 r') ++ pairs_of (e_rd r) (e_rd r') ++ pairs_of (e_imm r) (e_imm r') ++
  pairs_of (e_rdu r) (e_rdu r') ++ pairs_of (e_mu r) (e_mu r') ++ pairs_of (e_pcu r) (e_pcu r').
Lemma thread_cons {A B S} (f : A -> S -> B * S) a l s b s1 bs s2 :
  f a s = (b, s1) -> thread_map f l s1 = (bs, s2) -> thread_map f (a :: l) s = (b :: bs, s2).
Proof. intros E F. cbn [thread_map]. rewrite E, F. reflexivity. Qed.
Lemma seal_array_eq L k b s cs s' : thread_map (seal_poly L k) (ba_data b) s = (cs, s') -> seal_array L k b s = (BitArray cs (ba_bits b), s').
Proof. intro E. unfold seal_array. rewrite E. reflexivity. Qed.
Lemma seal_memory_eq L k m s bs s' : thread_map (seal_array L k) (m_planes m) s = (bs, s') ->
  seal_memory L k m s = (Memory bs (m_size m) (m_bits m) (m_state m), s').
Proof. intro E. unfold seal_memory. rewrite E. reflexivity. Qed.
Lemma seal_roms_eq L k r s c1 s1 c2 s2 c3 s3 c4 s4 c5 s5 c6 s6 c7 s7 :
  seal_memory L k (e_rs1 r) s = (c1, s1) -> seal_memory L k (e_rs2 r) s1 = (c2, s2) -> seal_memory L k (e_rd r) s2 = (c3, s3) ->
  seal_memory L k (e_imm r) s3 = (c4, s4) -> seal_memory L k (e_rdu r) s4 = (c5, s5) -> seal_memory L k (e_mu r) s5 = (c6, s6) ->
  seal_memory L k (e_pcu r) s6 = (c7, s7) -> seal_roms L k r s = (ERoms c4 c1 c2 c3 c5 c6 c7, s7).
Proof. intros E1 E2 E3 E4 E5 E6 E7. unfold seal_roms. rewrite E1, E2, E3, E4, E5, E6, E7. reflexivity. Qed.
Lemma publish_eq L sx sa se ev k xs kl xl rom s1 keys xa xe ram s2 :
  gen_glwe L (new_source L sx) = (k, xs) -> gen_lwe L xs = (kl, xl) ->
  seal_roms L k (v_rom (ev_vm ev)) (new_source L sa, new_source L se) = (rom, s1) ->
  gen_keys L kl k (fst s1) (snd s1) = (keys, xa, xe) -> seal_memory L k (v_ram (ev_vm ev)) (xa, xe) = (ram, s2) ->
  snd (publish_with L sx sa se ev) =
  Published L rom keys ram (v_rom_size (ev_vm ev)) (v_ram_size (ev_vm ev)) (ev_out ev) (ev_offset ev) (ev_max ev).
Proof. intros E1 E2 E3 E4 E5. unfold publish_with. rewrite E1, E2, E3, E4, E5. reflexivity. Qed.
Section Either.
Variable P : list (poly * poly).
Notation L := (either P).
Lemma either_list : forall l l' sd rest xe, length l = length l' ->
  exists cs, thread_map (seal_poly L true) l ((sd, combine l l' ++ rest), xe) = (cs, ((sd, rest), xe)) /\
    forall sd', thread_map (seal_poly L false) l' ((sd', combine l l' ++ rest), xe) = (cs, ((sd', rest), xe)).
Proof.
  induction l as [|m l IH]; intros [|m' l'] sd rest xe E; try discriminate.
  - exists []. split; reflexivity.
  - injection E as E. destruct (IH l' sd rest xe E) as (cs & A & B). exists ((m, m', m') :: cs). split.
    + refine (thread_cons _ _ _ _ _ _ _ _ _ A). unfold seal_poly. cbn [combine app encrypt either snd fst]. rewrite swapped_left. reflexivity.
    + intro sd'. refine (thread_cons _ _ _ _ _ _ _ _ _ (B sd')). reflexivity.
Qed.
Lemma either_planes : forall l l', Forall2 same_array l l' -> forall sd rest xe,
  let ps := concat (map (fun bc => combine (ba_data (fst bc)) (ba_data (snd bc))) (combine l l')) in
  exists cs, thread_map (seal_array L true) l ((sd, ps ++ rest), xe) = (cs, ((sd, rest), xe)) /\
    forall sd', thread_map (seal_array L false) l' ((sd', ps ++ rest), xe) = (cs, ((sd', rest), xe)).
Proof.
  induction 1 as [|b c l l' [E1 E2] F IH]; intros sd rest xe; cbv zeta.
  - exists []. split; reflexivity.
  - cbn [combine map concat fst snd]. rewrite <- app_assoc.
    destruct (either_list (ba_data b) (ba_data c) sd (concat (map (fun bc => combine (ba_data (fst bc)) (ba_data (snd bc))) (combine l l')) ++ rest) xe E2) as (cs & A & B).
    destruct (IH sd rest xe) as (bs & A' & B'). exists (BitArray cs (ba_bits b) :: bs). split.
    + exact (thread_cons _ _ _ _ _ _ _ _ (seal_array_eq _ _ _ _ _ _ A) A').
    + intro sd'. rewrite E1. exact (thread_cons _ _ _ _ _ _ _ _ (seal_array_eq _ _ _ _ _ _ (B sd')) (B' sd')).
Qed.
Lemma either_memory m m' sd rest xe : same_shape m m' ->
  exists c, seal_memory L true m ((sd, pairs_of m m' ++ rest), xe) = (c, ((sd, rest), xe)) /\
    forall sd', seal_memory L false m' ((sd', pairs_of m m' ++ rest), xe) = (c, ((sd', rest), xe)).
Proof.
  intros (E1 & E2 & E3 & F). destruct (either_planes _ _ F sd rest xe) as (cs & A & B).
  exists (Memory cs (m_size m) (m_bits m) (m_state m)). split; [exact (seal_memory_eq _ _ _ _ _ _ A)|].
  intro sd'. rewrite E1, E2, E3. exact (seal_memory_eq _ _ _ _ _ _ (B sd')).
Qed.
Lemma either_roms r r' sd rest xe : same_roms r r' ->
  exists c, seal_roms L true r ((sd, pairs_of_roms r r' ++ rest), xe) = (c, ((sd, rest), xe)) /\
    forall sd', seal_roms L false r' ((sd', pairs_of_roms r r' ++ rest), xe) = (c, ((sd', rest), xe)).
Proof.
  intros (H1 & H2 & H3 & H4 & H5 & H6 & H7). unfold pairs_of_roms. rewrite <- !app_assoc.
  destruct (either_memory _ _ sd (pairs_of (e_rs2 r) (e_rs2 r') ++ pairs_of (e_rd r) (e_rd r') ++ pairs_of (e_imm r) (e_imm r') ++
    pairs_of (e_rdu r) (e_rdu r') ++ pairs_of (e_mu r) (e_mu r') ++ pairs_of (e_pcu r) (e_pcu r') ++ rest) xe H2) as (c1 & A1 & B1).
  destruct (either_memory _ _ sd (pairs_of (e_rd r) (e_rd r') ++ pairs_of (e_imm r) (e_imm r') ++
    pairs_of (e_rdu r) (e_rdu r') ++ pairs_of (e_mu r) (e_mu r') ++ pairs_of (e_pcu r) (e_pcu r') ++ rest) xe H3) as (c2 & A2 & B2).
  destruct (either_memory _ _ sd (pairs_of (e_imm r) (e_imm r') ++
    pairs_of (e_rdu r) (e_rdu r') ++ pairs_of (e_mu r) (e_mu r') ++ pairs_of (e_pcu r) (e_pcu r') ++ rest) xe H4) as (c3 & A3 & B3).
  destruct (either_memory _ _ sd (pairs_of (e_rdu r) (e_rdu r') ++ pairs_of (e_mu r) (e_mu r') ++ pairs_of (e_pcu r) (e_pcu r') ++ rest) xe H1) as (c4 & A4 & B4).
  destruct (either_memory _ _ sd (pairs_of (e_mu r) (e_mu r') ++ pairs_of (e_pcu r) (e_pcu r') ++ rest) xe H5) as (c5 & A5 & B5).
  destruct (either_memory _ _ sd (pairs_of (e_pcu r) (e_pcu r') ++ rest) xe H6) as (c6 & A6 & B6).
  destruct (either_memory _ _ sd rest xe H7) as (c7 & A7 & B7).
  exists (ERoms c4 c1 c2 c3 c5 c6 c7). split.
  - exact (seal_roms_eq _ _ _ _ _ _ _ _ _ _ _ _ _ _ _ _ _ _ A1 A2 A3 A4 A5 A6 A7).
  - intro sd'. exact (seal_roms_eq _ _ _ _ _ _ _ _ _ _ _ _ _ _ _ _ _ _ (B1 sd') (B2 sd') (B3 sd') (B4 sd') (B5 sd') (B6 sd') (B7 sd')).
Qed.
End Either.

(** C87.  If instead the seed of the secret key is not known, nothing that works for every
    library tells two VMs of the same size apart: some correct library publishes the same for
    both, under two seeds. *)
Theorem C87_unknown_seed :
  forall log ph tape ev ph' tape' ev', started log ph tape ev -> started log ph' tape' ev' ->
    b_size (boot_rom ph) = b_size (boot_rom ph') ->
    ev_out ev = ev_out ev' -> ev_offset ev = ev_offset ev' -> ev_max ev = ev_max ev' ->
    exists L seed seed', correct log L /\ length seed = 32%nat /\ length seed' = 32%nat /\
      forall seed_xa seed_xe, snd (publish_with L seed seed_xa seed_xe ev) = snd (publish_with L seed' seed_xa seed_xe ev').
Proof.
  intros log ph tape ev ph' tape' ev' ST ST' E EO EF EM.
  destruct (started_shows log ph tape ev ST) as (rb & dbg & r & _ & S & _ & _ & _ & RS & _).
  destruct (started_shows log ph' tape' ev' ST') as (rb' & dbg' & r' & _ & S' & _ & _ & _ & RS' & _).
  assert (ER : v_rom_size (ev_vm ev) = v_rom_size (ev_vm ev')) by congruence.
  destruct (shows_same _ _ _ _ _ _ _ _ S S' ER) as (SR & SM & ES).
  set (P := pairs_of_roms (v_rom (ev_vm ev)) (v_rom (ev_vm ev')) ++ pairs_of (v_ram (ev_vm ev)) (v_ram (ev_vm ev')) ++ []).
  exists (either P), (repeat 1 32), (repeat 0 32). split; [apply either_correct|]. split; [reflexivity|]. split; [reflexivity|].
  intros sa se.
  destruct (either_roms P _ _ sa (pairs_of (v_ram (ev_vm ev)) (v_ram (ev_vm ev')) ++ []) (se, P) SR) as (c & A & B).
  destruct (either_memory P _ _ sa [] (se, P) SM) as (c' & A' & B').
  transitivity (Published (either P) c tt c' (v_rom_size (ev_vm ev)) (v_ram_size (ev_vm ev)) (ev_out ev) (ev_offset ev) (ev_max ev)).
  - exact (publish_eq (either P) (repeat 1 32) sa se ev true _ tt _ _ _ tt _ _ _ _ eq_refl eq_refl A eq_refl A').
  - symmetry. rewrite ER, ES, EO, EF, EM.
    exact (publish_eq (either P) (repeat 0 32) sa se ev' false _ tt _ _ _ tt _ _ _ _ eq_refl eq_refl (B sa) eq_refl (B' sa)).
Qed.
Print Assumptions C87_unknown_seed.
(** In particular no procedure finds the input. *)
Theorem C87_no_procedure :
  ~ exists a : procedure (list Z), forall log L, correct log L ->
      forall ph tape ev, started log ph tape ev -> forall seed seed_xa seed_xe,
        length seed = 32%nat -> a L (snd (publish_with L seed seed_xa seed_xe ev)) = Some tape.
Proof.
  intros (a & H).
  assert (HE : elf_ok (PropLoad.ex_elf 0 8)) by (apply PropLoad.ex_elf_ok; unfold is_u32; lia).
  assert (HP : from_elf true (PropLoad.ex_elf 0 8) = Some (PropLoad.ex_ph 0 8)) by (vm_compute; reflexivity).
  assert (X : forall t, t = [0; 0; 0; 0] \/ t = [1; 0; 0; 0] -> exists ev, started 6 (PropLoad.ex_ph 0 8) t ev /\
    ev_out ev = out_info (PropLoad.ex_ph 0 8) /\ ev_offset ev = b_offset (boot_ram (PropLoad.ex_ph 0 8)) /\ ev_max ev = 1%nat).
  { intros t Ht. assert (HB : Forall is_byte t) by (destruct Ht as [-> | ->]; repeat (apply Forall_cons || apply Forall_nil); unfold is_byte; lia).
    destruct (encrypted_vm 6 true true false (PropLoad.ex_ph 0 8) t 1) as [ev|] eqn:EV.
    - exists ev. destruct (enc_boot_inv true _ _ HE HP 6 true false t 1 ev EV HB) as (_ & _ & _ & E1 & E2 & E3 & _).
      split; [|auto]. split; [exact HB|]. exists true, true, false, 1%nat, (PropLoad.ex_elf 0 8). auto.
    - exfalso. destruct Ht as [-> | ->]; vm_compute in EV; discriminate EV. }
  destruct (X [0; 0; 0; 0] ltac:(auto)) as (ev & ST & E1 & E2 & E3). destruct (X [1; 0; 0; 0] ltac:(auto)) as (ev' & ST' & E1' & E2' & E3').
  destruct (C87_unknown_seed 6 _ _ ev _ _ ev' ST ST' eq_refl ltac:(congruence) ltac:(congruence) ltac:(congruence)) as (L & sd & sd' & C & S1 & S2 & Q).
  pose proof (H 6%nat L C _ _ ev ST sd [] [] S1) as A. pose proof (H 6%nat L C _ _ ev' ST' sd' [] [] S2) as A'.
  rewrite (Q [] []) in A. congruence.
Qed.
Print Assumptions C87_no_procedure.

(** ** equal ciphertexts *)
Inductive seen {C} : list poly -> list poly -> list C -> list C -> Prop :=
| Seen_nil : seen [] [] [] []
| Seen_cons m m' c c' l l' cs cs' : (c = c' <-> m = m') -> seen l l' cs cs' -> seen (m :: l) (m' :: l') (c :: cs) (c' :: cs').
Lemma seen_app {C} l l' cs cs' n n' ds ds' : @seen C l l' cs cs' -> @seen C n n' ds ds' -> seen (l ++ n) (l' ++ n') (cs ++ ds) (cs' ++ ds').
Proof. induction 1; intro; cbn [app]; [assumption|constructor; auto]. Qed.
Lemma seen_nth {C} l l' cs cs' : @seen C l l' cs cs' -> forall i m m' c c', nth_error l i = Some m -> nth_error l' i = Some m' ->
  nth_error cs i = Some c -> nth_error cs' i = Some c' -> (c = c' <-> m = m').
Proof.
  induction 1 as [|m m' c c' l l' cs cs' H S IH]; intros [|i] n n' d d' A B D E; cbn in *; try discriminate.
  - assert (m = n) by congruence. assert (m' = n') by congruence. assert (c = d) by congruence. assert (c' = d') by congruence. subst. exact H.
  - eauto.
Qed.
Section Equal.
Variables (log : nat) (L : library).
Hypotheses (C : correct log L) (ST : steady L).
Lemma equal_poly k m m' s : message log m -> message log m' -> exists c c' s1,
  seal_poly L k m s = (c, s1) /\ seal_poly L k m' s = (c', s1) /\ (c = c' <-> m = m').
Proof.
  intros F F'. pose proof (C k m (fst s) (snd s) F) as D. pose proof (C k m' (fst s) (snd s) F') as D'.
  destruct (ST k m m' (fst s) (snd s)) as [S1 S2]. unfold seal_poly.
  assert (Q : m = m' -> fst (fst (encrypt L k m (fst s) (snd s))) = fst (fst (encrypt L k m' (fst s) (snd s)))) by (intros <-; reflexivity).
  destruct (encrypt L k m (fst s) (snd s)) as [[c xa] xe]. destruct (encrypt L k m' (fst s) (snd s)) as [[c' xa'] xe'].
  cbn [fst snd] in *. subst xa' xe'. exists c, c', (xa, xe). split; [reflexivity|]. split; [reflexivity|]. split; [congruence|exact Q].
Qed.
Lemma equal_list k : forall l l' s, Forall (message log) l -> Forall (message log) l' -> length l = length l' ->
  exists cs cs' s1, thread_map (seal_poly L k) l s = (cs, s1) /\ thread_map (seal_poly L k) l' s = (cs', s1) /\ seen l l' cs cs'.
Proof.
  induction l as [|m l IH]; intros [|m' l'] s F F' E; try discriminate.
  - exists [], [], s. split; [reflexivity|]. split; [reflexivity|constructor].
  - apply Forall_cons_iff in F as [F1 F2]. apply Forall_cons_iff in F' as [F1' F2']. injection E as E.
    destruct (equal_poly k m m' s F1 F1') as (c & c' & s1 & A & B & Q). destruct (IH l' s1 F2 F2' E) as (cs & cs' & s2 & A2 & B2 & Q2).
    exists (c :: cs), (c' :: cs'), s2. split; [exact (thread_cons _ _ _ _ _ _ _ _ A A2)|].
    split; [exact (thread_cons _ _ _ _ _ _ _ _ B B2)|]. constructor; assumption.
Qed.
Lemma equal_planes k : forall l l', Forall2 same_array l l' -> forall s,
  Forall (fun b => Forall (message log) (ba_data b)) l -> Forall (fun b => Forall (message log) (ba_data b)) l' ->
  exists bs bs' s1, thread_map (seal_array L k) l s = (bs, s1) /\ thread_map (seal_array L k) l' s = (bs', s1) /\
    seen (concat (map ba_data l)) (concat (map ba_data l')) (concat (map ba_data bs)) (concat (map ba_data bs')).
Proof.
  induction 1 as [|b b' l l' [_ E] F2 IH]; intros s F F'.
  - exists [], [], s. split; [reflexivity|]. split; [reflexivity|constructor].
  - apply Forall_cons_iff in F as [G H]. apply Forall_cons_iff in F' as [G' H'].
    destruct (equal_list k _ _ s G G' E) as (cs & cs' & s1 & A & B & Q). destruct (IH s1 H H') as (bs & bs' & s2 & A2 & B2 & Q2).
    exists (BitArray cs (ba_bits b) :: bs), (BitArray cs' (ba_bits b') :: bs'), s2.
    split; [exact (thread_cons _ _ _ _ _ _ _ _ (seal_array_eq _ _ _ _ _ _ A) A2)|].
    split; [exact (thread_cons _ _ _ _ _ _ _ _ (seal_array_eq _ _ _ _ _ _ B) B2)|]. exact (seen_app _ _ _ _ _ _ _ _ Q Q2).
Qed.
Lemma equal_memory k m m' s : same_shape m m' -> messages log m -> messages log m' ->
  exists c c' s1, seal_memory L k m s = (c, s1) /\ seal_memory L k m' s = (c', s1) /\ seen (flat m) (flat m') (flat c) (flat c').
Proof.
  intros (_ & _ & _ & F) M M'. destruct (equal_planes k _ _ F s M M') as (bs & bs' & s1 & A & B & Q).
  exists (Memory bs (m_size m) (m_bits m) (m_state m)), (Memory bs' (m_size m') (m_bits m') (m_state m')), s1.
  split; [exact (seal_memory_eq _ _ _ _ _ _ A)|]. split; [exact (seal_memory_eq _ _ _ _ _ _ B)|exact Q].
Qed.
Lemma equal_roms k r r' s : same_roms r r' -> rom_messages log r -> rom_messages log r' ->
  exists c c' s1, seal_roms L k r s = (c, s1) /\ seal_roms L k r' s = (c', s1) /\ seen (flat_roms r) (flat_roms r') (flat_roms c) (flat_roms c').
Proof.
  intros (H1 & H2 & H3 & H4 & H5 & H6 & H7) (M1 & M2 & M3 & M4 & M5 & M6 & M7) (N1 & N2 & N3 & N4 & N5 & N6 & N7).
  destruct (equal_memory k _ _ s H2 M2 N2) as (c1 & d1 & s1 & A1 & B1 & Q1).
  destruct (equal_memory k _ _ s1 H3 M3 N3) as (c2 & d2 & s2 & A2 & B2 & Q2).
  destruct (equal_memory k _ _ s2 H4 M4 N4) as (c3 & d3 & s3 & A3 & B3 & Q3).
  destruct (equal_memory k _ _ s3 H1 M1 N1) as (c4 & d4 & s4 & A4 & B4 & Q4).
  destruct (equal_memory k _ _ s4 H5 M5 N5) as (c5 & d5 & s5 & A5 & B5 & Q5).
  destruct (equal_memory k _ _ s5 H6 M6 N6) as (c6 & d6 & s6 & A6 & B6 & Q6).
  destruct (equal_memory k _ _ s6 H7 M7 N7) as (c7 & d7 & s7 & A7 & B7 & Q7).
  exists (ERoms c4 c1 c2 c3 c5 c6 c7), (ERoms d4 d1 d2 d3 d5 d6 d7), s7.
  split; [exact (seal_roms_eq _ _ _ _ _ _ _ _ _ _ _ _ _ _ _ _ _ _ A1 A2 A3 A4 A5 A6 A7)|].
  split; [exact (seal_roms_eq _ _ _ _ _ _ _ _ _ _ _ _ _ _ _ _ _ _ B1 B2 B3 B4 B5 B6 B7)|].
  unfold flat_roms. cbn [e_imm e_rs1 e_rs2 e_rd e_rdu e_mu e_pcu]. repeat apply seen_app; assumption.
Qed.
End Equal.
(** Nor is the key needed to compare two VMs: masks and errors are the same in both, so that
    ciphertexts at the same place are equal exactly if the messages are. *)
Theorem C86_equal_ciphertexts :
  forall log L, correct log L -> steady L -> forall ph tape ev ph' tape' ev', started log ph tape ev -> started log ph' tape' ev' ->
    b_size (boot_rom ph) = b_size (boot_rom ph') ->
    let p := snd (publish L ev) in let p' := snd (publish L ev') in
    forall i m m' c c',
      nth_error (flat_roms (v_rom (ev_vm ev)) ++ flat (v_ram (ev_vm ev))) i = Some m ->
      nth_error (flat_roms (v_rom (ev_vm ev')) ++ flat (v_ram (ev_vm ev'))) i = Some m' ->
      nth_error (flat_roms (pub_rom p) ++ flat (pub_ram p)) i = Some c ->
      nth_error (flat_roms (pub_rom p') ++ flat (pub_ram p')) i = Some c' ->
      (c = c' <-> m = m').
Proof.
  intros log L C SD ph tape ev ph' tape' ev' ST ST' E p p'.
  destruct (started_shows log ph tape ev ST) as (rb & dbg & r & _ & S & _ & _ & _ & RS & _).
  destruct (started_shows log ph' tape' ev' ST') as (rb' & dbg' & r' & _ & S' & _ & _ & _ & RS' & _).
  destruct (shows_same _ _ _ _ _ _ _ _ S S' ltac:(congruence)) as (SR & SM & _).
  destruct (shows_messages _ _ _ _ _ S) as [MR MM]. destruct (shows_messages _ _ _ _ _ S') as [MR' MM'].
  apply seen_nth. subst p p'. unfold publish.
  destruct (gen_glwe L (new_source L phantom_seed)) as [k xs] eqn:G1. destruct (gen_lwe L xs) as [kl xl] eqn:G2.
  destruct (equal_roms log L C SD k _ _ (new_source L phantom_seed, new_source L phantom_seed) SR MR MR') as (c & c' & s1 & A & B & Q).
  destruct (gen_keys L kl k (fst s1) (snd s1)) as [[keys xa] xe] eqn:G3.
  destruct (equal_memory log L C SD k _ _ (xa, xe) SM MM MM') as (d & d' & s2 & A' & B' & Q').
  rewrite (publish_eq L _ _ _ ev k xs kl xl _ _ _ _ _ _ _ G1 G2 A G3 A'), (publish_eq L _ _ _ ev' k xs kl xl _ _ _ _ _ _ _ G1 G2 B G3 B').
  cbn [pub_rom pub_ram]. exact (seen_app _ _ _ _ _ _ _ _ Q Q').
Qed.
Print Assumptions C86_equal_ciphertexts.

(** A library that meets the hypotheses (with errors, masks and a key that matter): keys and
    ciphertexts are made from the numbers a generator yields. *)
Definition shifty : library := {|
  source := Z; new_source := fun seed => fold_left (fun a b => (31 * a + b + 1) mod 65536) seed 7;
  gsecret := Z; gen_glwe := fun s => (s mod 1000, (3 * s + 1) mod 65536);
  lsecret := Z; gen_lwe := fun s => (s mod 1000, (3 * s + 1) mod 65536);
  cipher := Z * list Z;
  encrypt := fun k m xa xe => ((xa, map (fun c => 8 * c + k * xa + xe mod 3) m), (5 * xa + 1) mod 65536, (7 * xe + 2) mod 65536);
  decrypt := fun k c => map (fun b => (b - k * fst c) / 8) (snd c);
  eval_keys := Z; gen_keys := fun l g xa xe => (l + g + xa + xe, (5 * xa + 1) mod 65536, (7 * xe + 2) mod 65536) |}.
Lemma shifty_ok log : correct log shifty /\ steady shifty.
Proof.
  split.
  - intros k m xa xe _. cbn [decrypt encrypt shifty fst snd]. rewrite map_map. transitivity (map (fun c => c) m); [|apply map_id].
    apply map_ext. intro c. replace (8 * c + k * xa + xe mod 3 - k * xa) with (c * 8 + xe mod 3) by ring.
    pose proof (Z.mod_pos_bound xe 3 ltac:(lia)). rewrite Z.div_add_l, (Z.div_small (xe mod 3)) by lia. lia.
  - intros k m m' xa xe. split; reflexivity.
Qed.
(** the procedure reads the input [41; 1; 0; 0] of PropLoad's program from what is published *)
Example C86_case :
  match encrypted_vm 6 true true false (PropLoad.ex_ph 0 8) PropLoad.ex_tape 1 with
  | Some ev => match attack shifty (snd (publish shifty ev)) with
               | Some (r, ram) => firstn 4 (ram_bytes ram) = [41; 1; 0; 0] /\ length (DebugVM.imm_rom r) = 6%nat /\ fst (publish shifty ev) <> 0
               | None => False
               end
  | None => False
  end.
Proof. vm_compute. repeat split; discriminate. Qed.
