(** * C88, C89, C90: settings from the environment, and what the host program returns *)
Require Import ZArith List Bool Lia.
Require Import Verif.Word Verif.Isa Verif.EvalSpec Verif.ListFacts Verif.IsaSplit Verif.RunSpec Verif.RunFacts Verif.TestRunSpec Verif.TestRunFacts
  Verif.DecodeSpec Verif.Glwe Verif.Par Verif.EncMem Verif.EncVM Verif.Loader Verif.LoadSpec Verif.LoadFacts Verif.LoadRun
  Verif.ExactSpec Verif.ShadowSpec Verif.RefSpec Verif.Host Verif.HostSpec.
Require Verif.EncSpec Verif.EncRun Verif.EncCycle Verif.EncTrack Verif.PropExact Verif.PropShadow Verif.PropRef Verif.PropLoad Verif.PropEnc.
Import ListNotations.
Open Scope Z_scope.
Ltac Zify.zify_post_hook ::= idtac.

(** ** numbers *)
Lemma decimal_pos ds : Forall (fun c => 48 <= c <= 57) ds -> 0 <= decimal ds.
Proof. induction 1 as [|c r H F IH]; cbn [decimal]; [lia|]. pose proof (Z.pow_nonneg 10 (Z.of_nat (length r)) ltac:(lia)). nia. Qed.
Lemma pow_step n : 10 ^ Z.of_nat (S n) = 10 * 10 ^ Z.of_nat n.
Proof. rewrite Nat2Z.inj_succ, Z.pow_succ_r by lia. reflexivity. Qed.
Lemma digits_none s : fold_left digit_step s None = None.
Proof. induction s; cbn; auto. Qed.
Lemma digits_ok : forall s v n, 0 <= v < 2 ^ 64 ->
  (fold_left digit_step s (Some v) = Some n <->
   Forall (fun c => 48 <= c <= 57) s /\ n = v * 10 ^ Z.of_nat (length s) + decimal s /\ n < 2 ^ 64).
Proof.
  induction s as [|c r IH]; intros v n V.
  - cbn [fold_left length decimal]. change (10 ^ Z.of_nat 0) with 1. split; [intros [= <-]; repeat split; [constructor|lia|lia]|intros (_ & -> & _); f_equal; lia].
  - cbn [fold_left]. unfold digit_step at 2. cbn [decimal length]. rewrite pow_step.
    pose proof (Z.pow_pos_nonneg 10 (Z.of_nat (length r)) ltac:(lia) ltac:(lia)) as P.
    split.
    + intro E. destruct (Z.ltb_spec (10 * v) (2 ^ 64)); [|rewrite digits_none in E; discriminate].
      destruct (Z.leb_spec 48 c); [|rewrite digits_none in E; discriminate].
      destruct (Z.leb_spec c 57); [|rewrite digits_none in E; discriminate]. cbn [andb] in E.
      destruct (Z.ltb_spec (10 * v + (c - 48)) (2 ^ 64)); [|rewrite digits_none in E; discriminate].
      apply IH in E; [|lia]. destruct E as (E1 & E2 & E3). repeat split; [constructor; [lia|exact E1]| |exact E3]. rewrite E2. ring.
    + intros (F & E & L). apply Forall_cons_iff in F as [F1 F2]. pose proof (decimal_pos r F2) as D.
      assert (B : 10 * v + (c - 48) < 2 ^ 64) by nia.
      destruct (Z.ltb_spec (10 * v) (2 ^ 64)); [|lia]. destruct (Z.leb_spec 48 c); [|lia]. destruct (Z.leb_spec c 57); [|lia]. cbn [andb].
      destruct (Z.ltb_spec (10 * v + (c - 48)) (2 ^ 64)); [|lia]. apply IH; [lia|]. repeat split; [exact F2| |exact L]. rewrite E. ring.
Qed.
Lemma parse_digits_ok s n : parse_digits s = Some n <-> Forall (fun c => 48 <= c <= 57) s /\ n = decimal s /\ n < 2 ^ 64.
Proof. unfold parse_digits. rewrite digits_ok by lia. rewrite Z.mul_0_l, Z.add_0_l. reflexivity. Qed.
Lemma parse_ok s n : parse_usize s = Some n <-> writes s n.
Proof.
  unfold parse_usize, writes. destruct s as [|c [|d r]].
  - split; [discriminate|]. intros (ds & [E|E] & N & _); [congruence|discriminate].
  - destruct (Z.eqb_spec c 43) as [->|C1]; cbn [orb].
    { split; [discriminate|]. intros (ds & [E|E] & N & F & _).
      - subst ds. apply Forall_cons_iff in F as [F _]. lia.
      - injection E as <-. congruence. }
    destruct (Z.eqb_spec c 45) as [->|C2]; cbn [orb].
    { split; [discriminate|]. intros (ds & [E|E] & N & F & _); [|discriminate]. subst ds. apply Forall_cons_iff in F as [F _]. lia. }
    rewrite parse_digits_ok. split.
    + intros (F & E & L). exists [c]. repeat split; auto. discriminate.
    + intros (ds & [E|E] & N & F & E' & L); [subst ds; auto|]. congruence.
  - destruct (Z.eqb_spec c 43) as [->|C].
    + rewrite parse_digits_ok. split.
      * intros (F & E & L). exists (d :: r). repeat split; auto. discriminate.
      * intros (ds & [E|E] & N & F & E' & L); [subst ds; apply Forall_cons_iff in F as [F _]; lia|]. injection E as <-. auto.
    + rewrite parse_digits_ok. split.
      * intros (F & E & L). exists (c :: d :: r). repeat split; auto. discriminate.
      * intros (ds & [E|E] & N & F & E' & L); [subst ds; auto|]. congruence.
Qed.

(** C88.  A number is taken from the environment exactly if the variable writes one
    that fits 64 bits; otherwise the default is taken, silently. *)
Theorem C88_numbers :
  forall default v n, number_of default v = n <->
    (exists s, v = Some s /\ writes s n) \/ (n = default /\ forall s k, v = Some s -> ~ writes s k).
Proof.
  intros default v n. unfold number_of. destruct v as [s|].
  - destruct (parse_usize s) as [k|] eqn:E.
    + split; [intros <-; left; exists s; split; [reflexivity|apply parse_ok; exact E]|].
      intros [(s' & [= <-] & W)|(_ & N)]; [apply parse_ok in W; congruence|]. exfalso. apply (N s k eq_refl). apply parse_ok. exact E.
    + split; [intros <-; right; split; [reflexivity|]; intros s' k [= <-] W; apply parse_ok in W; congruence|].
      intros [(s' & [= <-] & W)|(-> & _)]; [apply parse_ok in W; congruence|reflexivity].
  - split; [intros <-; right; split; [reflexivity|discriminate]|]. intros [(s & E & _)|(-> & _)]; [discriminate|reflexivity].
Qed.
Print Assumptions C88_numbers.
Lemma eqb_list_eq : forall xs ys, eqb_list xs ys = true <-> xs = ys.
Proof.
  induction xs as [|x xs IH]; intros [|y ys]; cbn [eqb_list]; try (split; [discriminate|discriminate]); [split; auto|].
  rewrite andb_true_iff, Z.eqb_eq, IH. split; [intros [-> ->]; reflexivity|intros [= -> ->]; auto].
Qed.
Lemma lower_is c d : 97 <= d <= 122 -> (lower c = d <-> c = d - 32 \/ c = d).
Proof. unfold lower. intros H. destruct (Z.leb_spec 65 c), (Z.leb_spec c 90); cbn [andb]; lia. Qed.
Theorem C88_flags :
  forall v, flag_of v = true <-> exists s, v = Some s /\ says_yes s.
Proof.
  intros [s|]; [|split; [discriminate|intros (s & [=] & _)]]. unfold flag_of. rewrite orb_true_iff, !eqb_list_eq. unfold says_yes. split.
  - intros [->|E]; [exists [49]; auto|]. exists s. split; [reflexivity|]. right.
    destruct s as [|t [|r [|u [|e [|]]]]]; try discriminate. cbn [map] in E. injection E as E1 E2 E3 E4.
    apply lower_is in E1; [|lia]. apply lower_is in E2; [|lia]. apply lower_is in E3; [|lia]. apply lower_is in E4; [|lia].
    exists t, r, u, e. split; [reflexivity|]. lia.
  - intros (s' & [= <-] & [->|(t & r & u & e & -> & H1 & H2 & H3 & H4)]); [auto|]. right. cbn [map].
    rewrite (proj2 (lower_is t 116 ltac:(lia))), (proj2 (lower_is r 114 ltac:(lia))), (proj2 (lower_is u 117 ltac:(lia))), (proj2 (lower_is e 101 ltac:(lia))) by lia.
    reflexivity.
Qed.
Print Assumptions C88_flags.
(** "+007" is 7; a number of 64 bits; one that is too large, "-1", "32 " and "" are not
    taken; "TrUe" is yes, "yes" is not. *)
Example C88_case :
  number_of 32 (Some [43; 48; 48; 55]) = 7 /\
  number_of 32 (Some [49; 56; 52; 52; 54; 55; 52; 52; 48; 55; 51; 55; 48; 57; 53; 53; 49; 54; 49; 53]) = 18446744073709551615 /\
  number_of 32 (Some [49; 56; 52; 52; 54; 55; 52; 52; 48; 55; 51; 55; 48; 57; 53; 53; 49; 54; 49; 54]) = 32 /\
  number_of 32 (Some [45; 49]) = 32 /\ number_of 32 (Some [51; 50; 32]) = 32 /\ number_of 32 (Some []) = 32 /\
  number_of 32 (Some [48]) = 0 /\
  flag_of (Some [84; 114; 85; 101]) = true /\ flag_of (Some [121; 101; 115]) = false.
Proof. vm_compute. repeat split. Qed.

(** ** no threads *)
(** Zero is a number too: with it every cycle panics, whatever the library, machine
    and keys are. *)
Theorem C88_no_threads :
  forall C P F (A : alg C P F) sk chk e es v, n_threads e = 0%nat -> ecycles A sk chk (e :: es) v = None.
Proof.
  intros C P F A sk chk e es v T. cbn [ecycles]. unfold ecycle.
  destruct (if v_cycle v =? 0 then _ else _) as [pcp|]; [|reflexivity]. unfold read_components, mem_read_stateless at 1.
  destruct (nonempty (e_imm (v_rom v))); [|reflexivity]. destruct (negb (m_state (e_imm (v_rom v)))); [|reflexivity].
  unfold region, thread_tasks, tasks_of. rewrite T. reflexivity.
Qed.
Print Assumptions C88_no_threads.

(** ** the host program *)
Lemma word_of_bytes w : word w -> word_of (fun j => byte j w) = w.
Proof. intro W. pose proof (bytes_word w W) as B. unfold word_of. lia. Qed.
Lemma word_of_ext f g : (forall j, 0 <= j < 4 -> f j = g j) -> word_of f = word_of g.
Proof. intro H. unfold word_of. rewrite !H by lia. reflexivity. Qed.
Lemma words_chunks bs n m a : length bs = (4 * n)%nat -> Forall is_byte bs ->
  (forall i, 0 <= i < Z.of_nat (4 * n) -> m (a + i) = nth (Z.to_nat i) bs 0) ->
  words_at m a n = chunks4 bs.
Proof.
  intros L F M. destruct (chunks4_bytes n bs L F) as (C1 & C2 & C3).
  apply nth_error_ext. intro k. unfold words_at. destruct (Nat.lt_ge_cases k n) as [K|K].
  - rewrite nth_error_map. rewrite (nth_error_nth' (seq 0 n) 0%nat) by (rewrite seq_length; lia). rewrite seq_nth by lia. cbn [option_map Nat.add].
    destruct (nth_error_lt _ (chunks4 bs) k ltac:(lia)) as [w W]. rewrite W. f_equal.
    rewrite <- (word_of_bytes w) by exact (nth_error_Forall _ _ _ _ _ C2 W). apply word_of_ext. intros j J.
    rewrite <- Z.add_assoc, M by lia.
    pose proof (nth_ram_bytes _ _ w (Z.to_nat j) W ltac:(lia)) as N. rewrite C3, Z2Nat.id in N by lia.
    replace (Z.to_nat (4 * Z.of_nat k + j)) with (4 * k + Z.to_nat j)%nat by lia.
    exact (nth_error_nth _ _ 0 N).
  - rewrite (proj2 (nth_error_None _ k)) by (rewrite map_length, seq_length; lia).
    symmetry. apply nth_error_None. lia.
Qed.
Lemma bits_up n : 0 < n -> bit_len_pred n = Some (Z.to_nat (Z.log2_up n)).
Proof.
  intro H. unfold bit_len_pred. destruct (Z.leb_spec n 0); [lia|]. f_equal. f_equal. destruct (Z.eqb_spec n 1) as [->|N]; [reflexivity|].
  rewrite Z.log2_up_eqn by lia. rewrite Z.sub_1_r. lia.
Qed.

Section Run.
Variables (chk dbg : bool) (e : elf) (ph : phantom) (tape : list Z) (log : nat).
Hypothesis (HE : elf_ok e) (HP : from_elf chk e = Some ph) (HB : Forall is_byte tape) (HO : b_offset (boot_ram ph) + 4096 <= 2 ^ 32).
Notation off := (b_offset (boot_ram ph)).
Notation rom := (b_data (boot_rom ph)).
Notation ram := (b_data (boot_ram ph)).
Notation size := (Z.of_nat (length rom)).
Notation io i := (T.start_addr i, T.io_size i).

Lemma prog_eq : size mod 4 = 0 -> words_at (bytes_from 0 rom) 0 (Z.to_nat (size / 4)) = chunks4 rom.
Proof.
  intro M. destruct (rom_facts chk e ph HE HP) as (A & B & C & D). pose proof (Z.div_mod size 4 ltac:(lia)) as DM.
  assert (0 <= size / 4) by (apply Z.div_pos; lia).
  apply words_chunks; [lia|exact D|]. intros i I. unfold bytes_from. rewrite Z.add_0_l.
  destruct (Z.leb_spec 0 i); [|lia]. destruct (Z.ltb_spec i (0 + size)); [|lia]. cbn [andb]. rewrite Z.sub_0_r. reflexivity.
Qed.
Lemma data_eq : input_fits ph tape ->
  words_at (start_mem off ram (T.start_addr (inp_info ph)) tape) off 1024 = chunks4 (input_ram ph tape).
Proof.
  intro HF. destruct (input_ram_ok chk e ph HE HP tape HF HB) as (L & F & N). unfold RAM_SIZE in L.
  destruct (ram_facts chk e ph HE HP) as (R1 & R2 & R3 & R4 & _). unfold RAM_SIZE in *.
  apply words_chunks; [lia|exact F|]. intros i I. symmetry. apply nth_error_nth. rewrite N. unfold with_tape, start_mem, bytes_from.
  destruct HF as (F1 & F2 & F3). unfold RAM_SIZE in F3. set (s := T.start_addr (inp_info ph)) in *. set (t := Z.of_nat (length tape)) in *.
  rewrite Z2Nat.id by lia.
  destruct (Z.leb_spec (s - off) i), (Z.leb_spec s (off + i)); try lia; cbn [andb].
  - destruct (Z.ltb_spec i (s - off + t)), (Z.ltb_spec (off + i) (s + t)); try lia.
    + replace (Z.to_nat i - Z.to_nat (s - off))%nat with (Z.to_nat (off + i - s)) by lia. apply nth_error_nth'. lia.
    + destruct (Z.leb_spec off (off + i)); [|lia]. destruct (Z.ltb_spec (off + i) (off + Z.of_nat (length ram))); [|lia]. cbn [andb].
      replace (off + i - off) with i by lia. apply nth_error_nth'. lia.
  - destruct (Z.leb_spec off (off + i)); [|lia]. destruct (Z.ltb_spec (off + i) (off + Z.of_nat (length ram))); [|lia]. cbn [andb].
    replace (off + i - off) with i by lia. apply nth_error_nth'. lia.
Qed.

(** the output of the encrypted VM *)
Lemma output_eq s ws (r : Z -> Z) : v_ram_size (ev_vm s) = 1024%nat -> EncSpec.dec_ram (ev_vm s) = Some ws -> length ws = 1024%nat ->
  (forall k, 0 <= k < 1024 -> nth_error ws (Z.to_nat k) = Some (r k)) ->
  info_ok (ev_out s) -> is_u32 (ev_offset s) ->
  enc_output chk s = if chk && (T.start_addr (ev_out s) <? ev_offset s) && negb (Nat.eqb (Z.to_nat (T.io_size (ev_out s))) 0)
    then None else Some (map (fun i => ram_byte r (T.start_addr (ev_out s) + Z.of_nat i - ev_offset s)) (seq 0 (Z.to_nat (T.io_size (ev_out s))))).
Proof.
  intros HS HD HL HR (I1 & I2) HOf. unfold enc_output. change (Z.to_nat (Z.shiftr RAM_SIZE 2)) with 1024%nat.
  unfold EncSpec.dec_ram in HD. rewrite HS in HD. rewrite HD. cbv zeta. unfold is_u32 in *.
  set (st := T.start_addr (ev_out s)) in *. set (n := Z.to_nat (T.io_size (ev_out s))) in *.
  destruct (chk && (st <? ev_offset s) && negb (Nat.eqb n 0)) eqn:X.
  - apply andb_true_iff in X as [X X3]. apply andb_true_iff in X as [X1 X2]. subst chk. apply Z.ltb_lt in X2.
    destruct n as [|n]; [discriminate X3|]. cbn [seq T.mapM]. rewrite uadd_ok by (unfold is_u32; lia).
    unfold T.usub at 1. destruct (Z.leb_spec (ev_offset s) (st + Z.of_nat 0)); [lia|]. reflexivity.
  - apply mapM_some. intros i Hi. apply in_seq in Hi.
    rewrite uadd_ok by (unfold is_u32; lia).
    assert (U : exists u, T.usub chk (st + Z.of_nat i) (ev_offset s) = Some u /\ u mod RAM_SIZE = (st + Z.of_nat i - ev_offset s) mod 4096).
    { unfold T.usub. destruct (Z.leb_spec (ev_offset s) (st + Z.of_nat i)) as [Q|Q]; [eexists; split; reflexivity|].
      destruct chk.
      - destruct (Z.ltb_spec st (ev_offset s)); [|lia]. destruct (Nat.eqb_spec n 0); [lia|]. discriminate X.
      - eexists. split; [reflexivity|]. unfold u64, RAM_SIZE. change 18446744073709551616 with (4096 * 2 ^ 52).
        rewrite Z.rem_mul_r by lia. rewrite (Z.mul_comm 4096), Z.mod_add by lia. rewrite Z.mod_mod by lia. reflexivity. }
    destruct U as (u & -> & ->). set (a := (st + Z.of_nat i - ev_offset s) mod 4096).
    assert (HA : 0 <= a < 4096) by (apply Z.mod_pos_bound; lia).
    assert (HQ : 0 <= a / 4 < 1024) by (split; [apply Z.div_pos; lia|apply Z.div_lt_upper_bound; lia]).
    rewrite flat_word_bytes. rewrite (nth_ram_bytes_Z _ _ (r (a / 4))) by (auto; lia). reflexivity.
Qed.

Lemma test_side n : 0 < size ->
  (do tv <- test_vm chk ph n; do tv1 <- T.read_input_tape chk tv tape; do tv2 <- T.execute chk tv1; T.output_tape chk tv2)
  = ref_session chk (0, size) (off, 4096) rom ram (io (inp_info ph)) (io (out_info ph)) n tape.
Proof.
  intro P. destruct (rom_facts chk e ph HE HP) as (A & B & C & D). destruct (ram_facts chk e ph HE HP) as (R1 & R2 & R3 & R4 & R5 & R6).
  unfold info_ok, is_u32 in *. unfold RAM_SIZE in *.
  pose proof (PropRef.C61_session_exact chk (0, size) (off, 4096) rom ram (inp_info ph) (out_info ph) n tape) as S.
  unfold PropRef.region_ok in S. cbn [fst snd] in S.
  specialize (S ltac:(lia) ltac:(lia) D R4 HB ltac:(unfold word; lia) ltac:(unfold word; lia) ltac:(unfold word; lia)).
  unfold PropRef.io in S. rewrite <- S. unfold PropRef.session, test_vm. cbn [fst snd]. rewrite A, B, R2. reflexivity.
Qed.
Lemma session_fits n o : ref_session chk (0, size) (off, 4096) rom ram (io (inp_info ph)) (io (out_info ph)) n tape = Some o ->
  input_fits ph tape.
Proof.
  unfold ref_session. cbn [fst snd]. unfold input_fits, RAM_SIZE.
  destruct (Z.leb_spec size size); [|lia]. destruct (Z.leb_spec (Z.of_nat (length ram)) 4096); [|discriminate].
  destruct (Z.eqb_spec (Z.of_nat (length tape)) (T.io_size (inp_info ph))); [|discriminate].
  destruct (Z.leb_spec off (T.start_addr (inp_info ph))); [|discriminate].
  destruct (Z.leb_spec (T.start_addr (inp_info ph) + T.io_size (inp_info ph)) (off + 4096)); [|discriminate]. auto.
Qed.
Lemma session_out n o : ref_session chk (0, size) (off, 4096) rom ram (io (inp_info ph)) (io (out_info ph)) n tape = Some o ->
  chk && (T.start_addr (out_info ph) <? off) && negb (Nat.eqb (Z.to_nat (T.io_size (out_info ph))) 0) = false.
Proof.
  unfold ref_session. cbn [fst snd]. destruct (_ && _); [|discriminate]. destruct (ref_run _ _ _ _ _ _); [|discriminate].
  unfold tape_out. cbn [fst snd]. destruct (chk && _ && _); [discriminate|reflexivity].
Qed.
Lemma understood_ok ws : Forall word ws -> (forallb understood ws = true <-> Forall (accepted dbg) ws).
Proof.
  intro W. rewrite forallb_forall, Forall_forall. rewrite Forall_forall in W.
  split; intros H w I; specialize (H w I); specialize (W w I).
  - apply (PropExact.C59_accepted dbg w W). unfold understood in H. destruct (action_of w); [discriminate|discriminate H].
  - apply (PropExact.C59_accepted dbg w W) in H. unfold understood. destruct (action_of w); [reflexivity|congruence].
Qed.

Theorem run_eq : forall debug threads n orders,
  0 <= threads -> Z.of_nat n < 2 ^ 32 ->
  (0 < threads -> forall k, EncSpec.env_ok (Env (Z.to_nat threads) (orders k))) ->
  (do ev <- encrypted_vm log dbg chk debug ph tape n;
   assert (negb chk || (2 ^ 24 * threads <? 2 ^ 64));
   do ev' <- enc_execute log chk (map (fun k => Env (Z.to_nat threads) (orders k)) (seq 0 n)) ev;
   do have <- enc_output chk ev';
   do tv <- test_vm chk ph n;
   do tv1 <- T.read_input_tape chk tv tape;
   do tv2 <- T.execute chk tv1;
   do out <- T.output_tape chk tv2;
   assert (eqb_list out have);
   Some out)
  = host_spec chk debug threads n off rom ram (io (inp_info ph)) (io (out_info ph)) tape.
Proof.
  intros debug threads n orders HT HN HS. unfold host_spec. cbn [fst snd].
  destruct (rom_facts chk e ph HE HP) as (A & B & C & D). destruct (ram_facts chk e ph HE HP) as (R1 & R2 & R3 & R4 & R5 & R6).
  set (es := map (fun k => Env (Z.to_nat threads) (orders k)) (seq 0 n)).
  assert (LE : length es = n) by (unfold es; rewrite map_length, seq_length; reflexivity).
  (* the image *)
  destruct (encrypted_vm log dbg chk debug ph tape n) as [ev|] eqn:EV.
  2:{ destruct (Z.ltb_spec 0 size) as [P|]; [|reflexivity]. destruct (Z.eqb_spec (size mod 4) 0) as [M|]; [|reflexivity]. cbn [andb].
      rewrite (prog_eq M). destruct (forallb understood (chunks4 rom)) eqn:U; [|reflexivity]. cbn [andb].
      destruct (_ && _); [|reflexivity].
      destruct (ref_session _ _ _ _ _ _ _ _ _) as [o|] eqn:RS; [|reflexivity]. exfalso.
      pose proof (session_fits n o RS) as HF. rewrite <- B in M.
      destruct (rom_chunks chk e ph HE HP M) as (_ & W & _). 
      destruct (enc_boot chk e ph HE HP log dbg debug tape n) as [ev E]; [|exact HF|exact HB|congruence].
      split; [lia|]. split; [exact M|]. apply understood_ok; [exact W|exact U]. }
  destruct (enc_boot_inv chk e ph HE HP log dbg debug tape n ev EV HB) as (OK & HF & BO & O1 & O2 & O3 & O4).
  pose proof OK as (K1 & K2 & K3). destruct (rom_chunks chk e ph HE HP K2) as (C1 & C2 & C3 & C4).
  pose proof K1 as K1'. pose proof K2 as K2'. rewrite B in K1', K2'.
  destruct (Z.ltb_spec 0 size) as [_|]; [|lia]. destruct (Z.eqb_spec (size mod 4) 0) as [_|]; [|lia]. cbn [andb].
  rewrite (prog_eq K2'). rewrite (proj2 (understood_ok _ C2) K3). cbn [andb]. rewrite (data_eq HF).
  assert (RW : Z.to_nat (Z.shiftr (b_size (boot_rom ph)) 2) = Z.to_nat (size / 4)) by (rewrite B, Z.shiftr_div_pow2 by lia; reflexivity).
  assert (Q4 : 0 < size / 4).
  { pose proof (Z.div_mod size 4 ltac:(lia)). lia. }
  assert (RB : bit_len_pred (Z.of_nat (Z.to_nat (Z.shiftr (b_size (boot_rom ph)) 2))) = Some (Z.to_nat (Z.log2_up (size / 4)))).
  { rewrite RW, Z2Nat.id by lia. apply bits_up. exact Q4. }
  destruct (rom_bits chk e ph HE HP K1 K2) as (rb & RB' & Hrb). assert (rb = Z.to_nat (Z.log2_up (size / 4))) by congruence. subst rb. clear RB'.
  set (rb := Z.to_nat (Z.log2_up (size / 4))) in *.
  pose proof (enc_fits chk e ph HE HP dbg debug tape rb OK HF HB RB Hrb) as FT.
  destruct (negb chk || (2 ^ 24 * threads <? 2 ^ 64)); [|rewrite andb_false_r; reflexivity].
  rewrite andb_true_r. unfold enc_execute. rewrite O3, LE, Nat.eqb_refl, O4.
  destruct ((0 <? threads) || Nat.eqb n 0) eqn:TH.
  2:{ apply orb_false_iff in TH as [T1 T2]. apply Z.ltb_ge in T1. destruct n as [|n]; [discriminate T2|]. unfold es. cbn [seq map].
      rewrite C88_no_threads by (cbn [n_threads]; lia). reflexivity. }
  assert (EO : Forall EncSpec.env_ok es).
  { unfold es. apply Forall_forall. intros x I. apply in_map_iff in I as (k & <- & I). apply HS.
    destruct (Z.ltb_spec 0 threads); [assumption|]. destruct n; [destruct I|discriminate TH]. }
  (* the run *)
  assert (RUN : match ecycles (Ideal log) (if debug then Some secret_key else None) chk es (ev_vm ev),
                      (if debug then option_map s_ram (sh_run true 1024 (chunks4 rom) n (sh_start (chunks4 (input_ram ph tape))))
                       else Some (q_ram (q_run rb 10 (chunks4 rom) n (q_start (chunks4 (input_ram ph tape)))))) with
                | Some v, Some r => exists rm, EncSpec.dec_ram v = Some rm /\ length rm = 1024%nat /\
                    forall k, 0 <= k < 1024 -> nth_error rm (Z.to_nat k) = Some (r k)
                | None, None => True
                | _, _ => False
                end).
  { destruct debug.
    - pose proof (PropShadow.C63_checked_runs_exact log dbg _ rb 10 _ _ (ev_vm ev) (Some secret_key) chk es FT BO (EncCycle.key_secret log) EO) as R.
      rewrite LE in R. specialize (R HN). change (2 ^ Z.of_nat 10) with 1024 in R.
      destruct (ecycles _ _ _ _ _), (sh_run _ _ _ _ _); cbn [option_map]; auto. destruct R as (_ & R & _). exact R.
    - destruct (PropExact.C59_runs_complete log dbg false _ rb 10 _ _ (ev_vm ev) chk es FT BO EO) as [_ R].
      rewrite LE in R. destruct (R (or_intror HN)) as [v E]. rewrite E.
      pose proof (PropExact.C59_exact_machine log dbg false _ rb 10 _ _ (ev_vm ev) None false chk es v FT BO (or_introl (conj eq_refl eq_refl)) EO E) as (_ & R' & _).
      rewrite LE in R'. exact R'. }
  match goal with H : context [if debug then option_map ?a ?b else ?c] |- _ => set (rr := if debug then option_map a b else c) in * end.
  destruct (ecycles _ _ _ _ _) as [v|] eqn:EC.
  2:{ destruct rr; [destruct RUN|]. destruct (ref_session _ _ _ _ _ _ _ _ _); reflexivity. }
  destruct rr as [r|]; [|destruct RUN]. destruct RUN as (rm & D1 & D2 & D3).
  assert (VS : v_ram_size v = 1024%nat).
  { destruct (EncRun.boots_shows _ _ _ _ _ _ _ _ _ FT BO) as (r0 & _ & S & _).
    assert (K : EncCycle.key_ok log (if debug then Some secret_key else None) debug) by apply EncCycle.key_when.
    pose proof (EncTrack.run_shows log _ debug rb 10 chk es K EO _ _ _ S EC) as S'. apply S'. }
  assert (OE := output_eq {| ev_vm := v; ev_out := ev_out ev; ev_offset := ev_offset ev; ev_max := n; ev_debug := debug |} rm r VS D1 D2 D3).
  cbn [ev_vm ev_out ev_offset] in OE. rewrite O1, O2 in OE. specialize (OE R6 R1). rewrite O1, O2. 
  pose proof (test_side n K1') as TS.
  destruct (ref_session _ _ _ _ _ _ _ _ _) as [o|] eqn:RS.
  - rewrite (session_out n o RS) in OE. rewrite OE.
    destruct (test_vm chk ph n) as [tv|]; [|discriminate TS]. destruct (T.read_input_tape chk tv tape) as [tv1|]; [|discriminate TS].
    destruct (T.execute chk tv1) as [tv2|]; [|discriminate TS]. rewrite TS.
    destruct (list_eq_dec Z.eq_dec o _) as [<-|N].
    + rewrite EncTrack.eqb_list_refl. reflexivity.
    + destruct (eqb_list o _) eqn:Q; [apply eqb_list_eq in Q; contradiction|reflexivity].
  - destruct (enc_output chk _); [|reflexivity].
    destruct (test_vm chk ph n) as [tv|]; [|reflexivity]. destruct (T.read_input_tape chk tv tape) as [tv1|]; [|reflexivity].
    destruct (T.execute chk tv1) as [tv2|]; [|reflexivity]. rewrite TS. reflexivity.
Qed.
End Run.

(** ** the benchmark *)
Lemma q_run_S rb mb prog : forall n s, q_run rb mb prog (S n) s = q_step rb mb prog (q_run rb mb prog n s).
Proof. induction n as [|n IH]; intro s; [reflexivity|]. change (q_run rb mb prog (S (S n)) s) with (q_run rb mb prog (S n) (q_step rb mb prog s)). rewrite IH. reflexivity. Qed.
Lemma bench_machine ram : forall n, Z.of_nat n < 2 ^ 32 ->
  let q := q_run 10 6 (repeat 115 1024) n (q_start ram) in
  q_cycle q = Z.of_nat n /\ q_rf q = (fun _ => 0) /\ q_ram q = q_ram (q_start ram) /\
  q_last q = (if Nat.eqb n 0 then 0 else 4 * ((Z.of_nat n - 1) mod 1024)) /\
  q_pc q = if Nat.eqb n 0 then 0 else 4 * ((Z.of_nat n - 1) mod 1024 + 1).
Proof.
  induction n as [|n IH]; intro N; [repeat split|]. specialize (IH ltac:(lia)). cbv zeta in IH. cbv zeta. rewrite q_run_S.
  set (q := q_run 10 6 (repeat 115 1024) n (q_start ram)) in *. destruct IH as (I1 & I2 & I3 & I4 & I5). cbn [Nat.eqb].
  assert (PC : (if q_cycle q mod 2 ^ 32 =? 0 then q_last q else q_pc q mod (4 * 2 ^ Z.of_nat 10)) = 4 * (Z.of_nat n mod 1024)).
  { rewrite I1, Z.mod_small by lia. destruct n as [|n]; [rewrite I4; reflexivity|]. destruct (Z.eqb_spec (Z.of_nat (S n)) 0); [lia|].
    rewrite I5. cbn [Nat.eqb]. change (2 ^ Z.of_nat 10) with 1024. rewrite Zmult_mod_distr_l. f_equal.
    rewrite Zplus_mod_idemp_l. f_equal. lia. }
  pose proof (Z.mod_pos_bound (Z.of_nat n) 1024 ltac:(lia)) as B.
  unfold q_step. cbv zeta. rewrite PC.
  replace (4 * (Z.of_nat n mod 1024) / 4) with (Z.of_nat n mod 1024) by (rewrite Z.mul_comm, Z.div_mul by lia; reflexivity).
  rewrite nth_error_repeat by lia. change (action_of 115) with (Some Skip). cbv iota beta.
  cbn [q_cycle q_rf q_ram q_last q_pc]. replace (Z.of_nat (S n) - 1) with (Z.of_nat n) by lia.
  repeat split; auto; [lia|]. unfold to_word. rewrite Z.mod_small by lia. lia.
Qed.
Lemma zeros_eq n (l : list Z) : length l = n -> (forall k, (k < n)%nat -> nth_error l k = Some 0) -> l = repeat 0 n.
Proof.
  intros L H. apply nth_error_ext. intro k. destruct (Nat.lt_ge_cases k n) as [K|K].
  - rewrite nth_error_repeat by exact K. auto.
  - rewrite (proj2 (nth_error_None l k)) by lia. symmetry. apply nth_error_None. rewrite repeat_length. exact K.
Qed.
(** The benchmark runs for every setting and any number of iterations below 2^32, except
    with zero threads; it leaves all registers and the RAM zero and goes round the
    program. *)
Theorem C88_bench :
  forall log dbg chk threads orders n,
    (0 < number_of 32 threads -> forall k, EncSpec.env_ok (Env (Z.to_nat (number_of 32 threads)) (orders k))) ->
    0 <= number_of 32 threads -> Z.of_nat n < 2 ^ 32 ->
    match bench_run log dbg chk threads orders n with
    | Some v => (0 < number_of 32 threads \/ n = 0%nat) /\ EncSpec.dec_regs v = Some (repeat 0 32) /\ EncSpec.dec_ram v = Some (repeat 0 64) /\
        EncSpec.dec_pc v = if Nat.eqb n 0 then 0 else 4 * ((Z.of_nat n - 1) mod 1024 + 1)
    | None => number_of 32 threads = 0 /\ n <> 0%nat
    end.
Proof.
  intros log dbg chk threads orders n HO HT HN.
  assert (F : EncRun.fits true 1024 10 6 (repeat 115 1024) (repeat 0 64)).
  { unfold EncRun.fits. rewrite !repeat_length. repeat match goal with |- _ /\ _ => split end; auto; try lia; try reflexivity.
    - apply Forall_forall. intros x I. apply repeat_spec in I. subst x. unfold word. lia.
    - apply Forall_forall. intros x I. apply repeat_spec in I. subst x. unfold word. lia. }
  assert (A : Forall (accepted dbg) (repeat 115 1024)).
  { apply Forall_forall. intros x I. apply repeat_spec in I. subst x. apply PropExact.C59_accepted; [unfold word; lia|]. vm_compute. discriminate. }
  destruct (EncRun.boots_exists log dbg true 1024 10 6 _ _ F A) as (v0 & B). pose proof B as (p & P & L).
  unfold bench_run. rewrite P. change (2 ^ 6)%nat with 64%nat in L. rewrite L.
  set (es := map _ (seq 0 n)). assert (LE : length es = n) by (unfold es; rewrite map_length, seq_length; reflexivity).
  destruct (Z.eq_dec (number_of 32 threads) 0) as [Z0|NZ].
  { destruct n as [|n].
    2:{ unfold es. cbn [seq map]. rewrite C88_no_threads by (cbn [n_threads]; rewrite Z0; reflexivity). split; [exact Z0|discriminate]. }
    assert (D := PropExact.C59_exact_machine log dbg true _ 10 6 _ _ v0 None false chk [] v0 F B (or_introl (conj eq_refl eq_refl)) (Forall_nil _) eq_refl).
    cbn [es seq map ecycles]. destruct D as ((rg & R1 & R2 & R3) & (rm & M1 & M2 & M3) & D). split; [auto|]. split; [|split; [|exact D]].
    - rewrite R1. f_equal. apply zeros_eq; [exact R2|]. intros k K. specialize (R3 (Z.of_nat k)). rewrite Nat2Z.id in R3. rewrite R3 by (unfold reg; lia).
      cbn [length q_run q_start q_rf]. unfold get. destruct (_ =? _); reflexivity.
    - rewrite M1. f_equal. apply zeros_eq; [exact M2|]. intros k K. specialize (M3 (Z.of_nat k)). rewrite Nat2Z.id in M3. rewrite M3 by (change (2 ^ Z.of_nat 6) with 64; lia).
      cbn [length q_run q_start q_ram]. f_equal. rewrite nth_repeat. reflexivity. }
  assert (EO : Forall EncSpec.env_ok es).
  { unfold es. apply Forall_forall. intros x I. apply in_map_iff in I as (k & <- & I). apply HO. lia. }
  destruct (PropExact.C59_runs_complete log dbg true _ 10 6 _ _ v0 chk es F B EO) as [_ R]. rewrite LE in R.
  destruct (R (or_intror HN)) as [v E]. rewrite E.
  assert (D := PropExact.C59_exact_machine log dbg true _ 10 6 _ _ v0 None false chk es v F B (or_introl (conj eq_refl eq_refl)) EO E).
  rewrite LE in D. destruct (bench_machine (repeat 0 64) n HN) as (_ & Q2 & Q3 & _ & Q5).
  destruct D as ((rg & R1 & R2 & R3) & (rm & M1 & M2 & M3) & D). split; [lia|]. split; [|split; [|rewrite D; exact Q5]].
  - rewrite R1. f_equal. apply zeros_eq; [exact R2|]. intros k K. specialize (R3 (Z.of_nat k)). rewrite Nat2Z.id in R3. rewrite R3 by (unfold reg; lia).
    rewrite Q2. unfold get. destruct (_ =? _); reflexivity.
  - rewrite M1. f_equal. apply zeros_eq; [exact M2|]. intros k K. specialize (M3 (Z.of_nat k)). rewrite Nat2Z.id in M3. rewrite M3 by (change (2 ^ Z.of_nat 6) with 64; lia).
    rewrite Q3. cbn [q_start q_ram]. f_equal. apply nth_repeat.
Qed.
Print Assumptions C88_bench.

(** ** the host program, exactly *)
Lemma number_pos default v : 0 <= default -> 0 <= number_of default v.
Proof.
  intro D. unfold number_of. destruct v as [s|]; [|exact D]. destruct (parse_usize s) as [n|] eqn:E; [|exact D].
  apply parse_ok in E. destruct E as (ds & _ & _ & F & -> & _). apply decimal_pos. exact F.
Qed.
(** C89. *)
Theorem C89_host_exact :
  forall log dbg chk cpus default vs e ph tape orders,
    elf_ok e -> from_elf chk e = Some ph -> Forall is_byte tape -> b_offset (boot_ram ph) + 4096 <= 2 ^ 32 ->
    let threads := number_of cpus (e_threads vs) in
    let cycles := number_of default (e_cycles vs) in
    0 <= cpus -> 0 <= default -> cycles < 2 ^ 32 ->
    (0 < threads -> forall k, EncSpec.env_ok (Env (Z.to_nat threads) (orders k))) ->
    host_run log dbg chk cpus default vs ph tape orders
    = host_spec chk (flag_of (e_debug vs)) threads (Z.to_nat cycles) (b_offset (boot_ram ph)) (b_data (boot_rom ph)) (b_data (boot_ram ph))
        (T.start_addr (inp_info ph), T.io_size (inp_info ph)) (T.start_addr (out_info ph), T.io_size (out_info ph)) tape.
Proof.
  intros log dbg chk cpus default vs e ph tape orders HE HP HB HO threads cycles C D HC HS.
  unfold host_run. fold threads cycles.
  pose proof (number_pos default (e_cycles vs) D). pose proof (number_pos cpus (e_threads vs) C).
  apply (run_eq chk dbg e ph tape log HE HP HB HO); auto. rewrite Z2Nat.id by assumption. exact HC.
Qed.
Print Assumptions C89_host_exact.
(** The number of threads (if positive), their schedules and the detailed timings change
    nothing. *)
Theorem C89_threads :
  forall log log' dbg dbg' chk cpus cpus' default vs vs' e ph tape orders orders',
    elf_ok e -> from_elf chk e = Some ph -> Forall is_byte tape -> b_offset (boot_ram ph) + 4096 <= 2 ^ 32 ->
    let threads := number_of cpus (e_threads vs) in
    let threads' := number_of cpus' (e_threads vs') in
    0 <= cpus -> 0 <= cpus' -> 0 <= default ->
    0 < threads < 2 ^ 40 -> 0 < threads' < 2 ^ 40 -> number_of default (e_cycles vs) < 2 ^ 32 ->
    e_cycles vs' = e_cycles vs -> flag_of (e_debug vs') = flag_of (e_debug vs) ->
    (forall k, EncSpec.env_ok (Env (Z.to_nat threads) (orders k))) -> (forall k, EncSpec.env_ok (Env (Z.to_nat threads') (orders' k))) ->
    host_run log dbg chk cpus default vs ph tape orders = host_run log' dbg' chk cpus' default vs' ph tape orders'.
Proof.
  intros log log' dbg dbg' chk cpus cpus' default vs vs' e ph tape orders orders' HE HP HB HO threads threads' C C' D T1 T2 HC E1 E2 S1 S2.
  rewrite (C89_host_exact log dbg chk cpus default vs e ph tape orders HE HP HB HO) by auto.
  rewrite (C89_host_exact log' dbg' chk cpus' default vs' e ph tape orders' HE HP HB HO) by (rewrite ?E1; auto).
  rewrite E1, E2. fold threads threads'. unfold host_spec. cbv zeta.
  rewrite (proj2 (Z.ltb_lt 0 threads)), (proj2 (Z.ltb_lt 0 threads')) by lia.
  rewrite (proj2 (Z.ltb_lt (2 ^ 24 * threads) (2 ^ 64))), (proj2 (Z.ltb_lt (2 ^ 24 * threads') (2 ^ 64))) by lia. reflexivity.
Qed.
Print Assumptions C89_threads.

Lemma shadow_is_exact dbg ws data rom_words rb n m : EncRun.fits true rom_words rb 10 ws data -> Forall (accepted dbg) ws -> Z.of_nat n < 2 ^ 32 ->
  sh_run true 1024 ws n (sh_start data) = Some m ->
  forall k, 0 <= k < 1024 -> s_ram m k = q_ram (q_run rb 10 ws n (q_start data)) k.
Proof.
  intros F A N R. destruct (EncRun.boots_exists 1 dbg true rom_words rb 10 ws data F A) as (v0 & B).
  pose proof (PropEnc.ex_envs n) as EO. set (es := repeat (PropEnc.ex_env 2) n) in *.
  assert (LE : length es = n) by apply repeat_length.
  pose proof (PropShadow.C63_checked_runs_exact 1 dbg _ rb 10 _ _ v0 (Some secret_key) true es F B (EncCycle.key_secret 1) EO) as S.
  rewrite LE in S. specialize (S N). change (2 ^ Z.of_nat 10) with 1024 in S. rewrite R in S.
  destruct (ecycles (Ideal 1) (Some secret_key) true es v0) as [v|] eqn:E; [|destruct S].
  destruct S as (_ & (rm & S1 & S2 & S3) & _).
  pose proof (PropExact.C59_exact_machine 1 dbg true _ rb 10 _ _ v0 (Some secret_key) true true es v F B (EncCycle.key_secret 1) EO E) as (_ & (rm' & Q1 & Q2 & Q3) & _).
  rewrite LE in Q3. change (2 ^ Z.of_nat 10) with 1024 in Q3. assert (rm' = rm) by congruence. subst rm'.
  intros k K. specialize (S3 k K). specialize (Q3 k K). congruence.
Qed.
(** C90.  PHANTOM_DEBUG never changes an output: it can only add panics. *)
Theorem C90_debug_only_stops :
  forall log dbg chk cpus default vs vs' e ph tape orders o,
    elf_ok e -> from_elf chk e = Some ph -> Forall is_byte tape -> b_offset (boot_ram ph) + 4096 <= 2 ^ 32 ->
    0 <= cpus -> 0 <= default -> number_of default (e_cycles vs) < 2 ^ 32 ->
    (0 < number_of cpus (e_threads vs) -> forall k, EncSpec.env_ok (Env (Z.to_nat (number_of cpus (e_threads vs))) (orders k))) ->
    e_threads vs' = e_threads vs -> e_cycles vs' = e_cycles vs ->
    flag_of (e_debug vs) = true -> flag_of (e_debug vs') = false ->
    host_run log dbg chk cpus default vs ph tape orders = Some o ->
    host_run log dbg chk cpus default vs' ph tape orders = Some o.
Proof.
  intros log dbg chk cpus default vs vs' e ph tape orders o HE HP HB HO C D HC HS E1 E2 F1 F2 H.
  rewrite (C89_host_exact log dbg chk cpus default vs e ph tape orders HE HP HB HO) in H by auto.
  rewrite (C89_host_exact log dbg chk cpus default vs' e ph tape orders HE HP HB HO) by (rewrite ?E1, ?E2; auto).
  rewrite E1, E2, F2. rewrite F1 in H. unfold host_spec in *. cbv zeta in *. cbn [fst snd] in *.
  destruct (rom_facts chk e ph HE HP) as (A1 & A2 & A3 & A4).
  destruct (Z.ltb_spec 0 (Z.of_nat (length (b_data (boot_rom ph))))) as [P|]; [|discriminate H].
  destruct (Z.eqb_spec (Z.of_nat (length (b_data (boot_rom ph))) mod 4) 0) as [M|]; [|discriminate H]. cbn [andb] in *.
  rewrite (prog_eq chk e ph HE HP M) in *.
  destruct (forallb understood (chunks4 (b_data (boot_rom ph)))) eqn:U; [|discriminate H]. cbn [andb] in *.
  destruct (_ && _); [|discriminate H].
  set (n := Z.to_nat (number_of default (e_cycles vs))) in *.
  assert (N : Z.of_nat n < 2 ^ 32). { unfold n. pose proof (number_pos default (e_cycles vs) D). lia. }
  destruct (ref_session _ _ _ _ _ _ _ _ _) as [o'|] eqn:RS; [|discriminate H].
  pose proof (session_fits chk ph tape n o' RS) as HF. rewrite (data_eq chk e ph tape log HE HP HB HF) in *.
  destruct (sh_run _ _ _ _ _) as [m|] eqn:SH; [|discriminate H]. cbn [option_map] in H.
  pose proof M as M'. rewrite <- A2 in M'. destruct (rom_chunks chk e ph HE HP M') as (C1 & C2 & C3 & C4).
  pose proof (proj1 (understood_ok dbg _ C2) U) as AC.
  destruct (rom_bits chk e ph HE HP) as (rb & RB & Hrb); [lia|exact M'|].
  assert (Q4 : 0 < Z.of_nat (length (b_data (boot_rom ph))) / 4) by (pose proof (Z.div_mod (Z.of_nat (length (b_data (boot_rom ph)))) 4 ltac:(lia)); lia).
  assert (rb = Z.to_nat (Z.log2_up (Z.of_nat (length (b_data (boot_rom ph))) / 4))).
  { assert (RB2 := RB). rewrite A2, Z.shiftr_div_pow2 in RB2 by lia. change (2 ^ 2) with 4 in RB2. rewrite Z2Nat.id in RB2 by lia.
    rewrite bits_up in RB2 by exact Q4. congruence. }
  subst rb.
  assert (P' : 0 < b_size (boot_rom ph)) by lia.
  assert (FT := enc_fits chk e ph HE HP dbg true tape _ (conj P' (conj M' AC)) HF HB RB Hrb).
  pose proof (shadow_is_exact dbg _ _ _ _ n m FT AC N SH) as SE.
  match goal with |- (if list_eq_dec _ _ ?l then _ else _) = _ => match type of H with (if list_eq_dec _ _ ?l' then _ else _) = _ => replace l with l' end end; [exact H|].
  apply map_ext. intro i. unfold ram_byte. f_equal. apply SE.
  split; [apply Z.div_pos; [apply Z.mod_pos_bound; lia|lia]|apply Z.div_lt_upper_bound; [lia|]; apply Z.mod_pos_bound; lia].
Qed.
Print Assumptions C90_debug_only_stops.

(** ** cases *)
Definition plain : vars := {| e_verbose := None; e_threads := Some [50]; e_debug := None; e_cycles := None |}.
Definition checked : vars := {| e_verbose := None; e_threads := Some [50]; e_debug := Some [84; 114; 117; 101]; e_cycles := Some [43; 48; 56] |}.
Definition run_case (vs : vars) (ph : phantom) : option (list Z) :=
  host_spec true (flag_of (e_debug vs)) (number_of 8 (e_threads vs)) (Z.to_nat (number_of 10 (e_cycles vs)))
    (b_offset (boot_ram ph)) (b_data (boot_rom ph)) (b_data (boot_ram ph))
    (T.start_addr (inp_info ph), T.io_size (inp_info ph)) (T.start_addr (out_info ph), T.io_size (out_info ph)) PropLoad.ex_tape.
Lemma case_eq log dbg vs e ph : elf_ok e -> from_elf true e = Some ph -> b_offset (boot_ram ph) + 4096 <= 2 ^ 32 ->
  e_threads vs = Some [50] -> number_of 10 (e_cycles vs) < 2 ^ 32 ->
  host_run log dbg true 8 10 vs ph PropLoad.ex_tape (fun _ => sched (PropEnc.ex_env 2)) = run_case vs ph.
Proof.
  intros HE HP HO ET HC. unfold run_case.
  apply (C89_host_exact log dbg true 8 10 vs e ph PropLoad.ex_tape); auto; try lia.
  - repeat (apply Forall_cons || apply Forall_nil); unfold is_byte; lia.
  - intros _ k. rewrite ET. change (Z.to_nat (number_of 8 (Some [50]))) with 2%nat. exact PropEnc.ex_env_ok.
Qed.
(** the image of C37: the input plus one, with and without PHANTOM_DEBUG *)
Example C89_case : forall log dbg,
  host_run log dbg true 8 10 plain (PropLoad.ex_ph 0 8) PropLoad.ex_tape (fun _ => sched (PropEnc.ex_env 2)) = Some [42; 1; 0; 0] /\
  host_run log dbg true 8 10 checked (PropLoad.ex_ph 0 8) PropLoad.ex_tape (fun _ => sched (PropEnc.ex_env 2)) = Some [42; 1; 0; 0].
Proof.
  intros log dbg.
  assert (OK : elf_ok (PropLoad.ex_elf 0 8)) by (apply PropLoad.ex_elf_ok; unfold is_u32; lia).
  assert (HP : from_elf true (PropLoad.ex_elf 0 8) = Some (PropLoad.ex_ph 0 8)) by (vm_compute; reflexivity).
  assert (HO : b_offset (boot_ram (PropLoad.ex_ph 0 8)) + 4096 <= 2 ^ 32) by (vm_compute; discriminate).
  split.
  - rewrite (case_eq log dbg plain _ _ OK HP HO eq_refl) by (vm_compute; reflexivity). vm_compute. reflexivity.
  - rewrite (case_eq log dbg checked _ _ OK HP HO eq_refl) by (vm_compute; reflexivity). vm_compute. reflexivity.
Qed.
(** The converse is false: a MUL whose result is not used is harmless without PHANTOM_DEBUG
    and a panic with it. *)
Definition mul_prog : list Z := asm [LUI 1 0x40; LOAD LW 2 1 0; OPM MUL 3 2 2; STORE SW 1 2 4; JAL 0 0] ++ [0xC0001073].
Definition watched : vars := {| e_verbose := None; e_threads := Some [50]; e_debug := Some [49]; e_cycles := None |}.
Theorem C90_debug_transparent_refuted :
  exists e ph vs vs', elf_ok e /\ from_elf true e = Some ph /\ e_threads vs' = e_threads vs /\ e_cycles vs' = e_cycles vs /\
    forall log dbg,
    host_run log dbg true 8 10 vs ph PropLoad.ex_tape (fun _ => sched (PropEnc.ex_env 2)) = Some [41; 1; 0; 0] /\
    host_run log dbg true 8 10 vs' ph PropLoad.ex_tape (fun _ => sched (PropEnc.ex_env 2)) = None.
Proof.
  exists (PropLoad.elf_with mul_prog 0 8), (PropLoad.ph_of (PropLoad.elf_with mul_prog 0 8)), plain, watched.
  assert (OK : elf_ok (PropLoad.elf_with mul_prog 0 8)) by (apply PropLoad.elf_with_ok; unfold is_u32; lia).
  assert (HP : from_elf true (PropLoad.elf_with mul_prog 0 8) = Some (PropLoad.ph_of (PropLoad.elf_with mul_prog 0 8))) by (vm_compute; reflexivity).
  assert (HO : b_offset (boot_ram (PropLoad.ph_of (PropLoad.elf_with mul_prog 0 8))) + 4096 <= 2 ^ 32) by (vm_compute; discriminate).
  split; [exact OK|]. split; [exact HP|]. split; [reflexivity|]. split; [reflexivity|]. intros log dbg. split.
  - rewrite (case_eq log dbg plain _ _ OK HP HO eq_refl) by (vm_compute; reflexivity). vm_compute. reflexivity.
  - rewrite (case_eq log dbg watched _ _ OK HP HO eq_refl) by (vm_compute; reflexivity). vm_compute. reflexivity.
Qed.
Print Assumptions C90_debug_transparent_refuted.
Example C88_bench_case : forall log dbg, exists v, bench_run log dbg true (Some [50]) (fun _ => sched (PropEnc.ex_env 2)) 1030 = Some v /\ EncSpec.dec_pc v = 24.
Proof.
  intros log dbg. pose proof (C88_bench log dbg true (Some [50]) (fun _ => sched (PropEnc.ex_env 2)) 1030) as B.
  assert (T : number_of 32 (Some [50]) = 2) by reflexivity. rewrite T in B.
  assert (O : forall k : nat, EncSpec.env_ok (Env (Z.to_nat 2) (sched (PropEnc.ex_env 2)))) by (intros _; exact PropEnc.ex_env_ok).
  specialize (B (fun _ => O) ltac:(lia) ltac:(lia)).
  destruct (bench_run log dbg true (Some [50]) _ 1030) as [v|]; [|destruct B as [B _]; discriminate B].
  destruct B as (_ & _ & _ & B). exists v. split; [reflexivity|]. rewrite B. vm_compute. reflexivity.
Qed.
