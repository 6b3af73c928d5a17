(** * C106: the measured noise, as text

    [TextNoise] is the Rust text of `Memory::noise` and `BitArray::noise` (fhevm/src/memory.rs),
    translated by tools/gen_noise.py over the library of RustLib.v; f64 and the library's noise
    statistics are the record [meter].  Measure.v is the model written by hand (C74, C75). *)
Require Import ZArith List Bool Lia.
From Verif Require Import Rust RustIter RustLib RustNoise TextLib TextLoop TextMemFacts TextMemClient.
Require Verif.Word Verif.Glwe Verif.Par Verif.EncMem Verif.Noise Verif.Measure.
Require Verif.PropMeasure Verif.TextMem Verif.TextNoise.
Import ListNotations.
Open Scope Z_scope.
Module N := Verif.Measure.
Module TN := Verif.TextNoise.

Lemma noise_nonneg : forall t a b, 0 <= N.ct_noise t a b.
Proof. intros. unfold N.ct_noise. induction (map _ _) as [|x l IH]; cbn [fold_right]; lia. Qed.
Lemma rows_nonneg : forall {C} t (phase : C -> list Z) buf chs cts, 0 <= N.rows_noise t phase buf chs cts.
Proof. intros C t phase buf chs. revert buf. induction chs as [|c chs IH]; intros buf [|x cts]; cbn [N.rows_noise]; try lia. specialize (IH (M.zip_over (fun x _ => x) c buf) cts). lia. Qed.

Section Noise.
Context {pb fu GL KL SL Src : Type}.
Variable A : G.alg (list Z) pb fu.
Variable sp : space GL KL SL.
Variable garbage : Z -> nat -> list Z.
Variable garbage_i64 : Z -> nat -> int I64.
Variable gl_n : GL -> Z.
Variable enc : Z -> list Z -> list Z.
Variable dec : Z -> list Z -> list Z.
Variable next : Src -> Src.
Let L : library := lib A sp garbage garbage_i64 gl_n enc dec next.
Notation log := (G.log_n A).
Notation ba_of := (ba_of A sp garbage garbage_i64 gl_n enc dec next).
Notation mem_of := (mem_of A sp garbage garbage_i64 gl_n enc dec next).
Notation n := (G.ring log).
Hypothesis ENC : forall x, enc 2 x = x.

(** What is asked of the meter: the statistic of a ciphertext and a plaintext, as a
    number [h x] of the text, is the largest distance [x] between the ciphertext's phase and
    the encoded plaintext; [f64::max] is the maximum, and [f64::MIN] that of nothing.  The
    plaintext it borrows may be changed, and it needs [cost] bytes of scratch space. *)
Variable F : meter L.
Variables (tor : Verif.Noise.torus) (phase : list Z -> list Z) (h : Z -> f64 F) (cost : GL -> Z).
Definition measures : Prop :=
  f64_MIN F = h 0 /\
  forall l (c pt : list Z) (s : Z), cost l <= s -> exists pt' st,
    GLWE_noise F ((l, c) : GLWE L) (tt : Module L) (pt : GLWEPlaintext L) (tt : Secret L) (s : Scratch L) = Some (pt', st) /\
    forall a, 0 <= a -> f64_max F (h a) (f64_log2 F (Stats_max F st)) = h (Z.max a (N.ct_noise tor (phase c) pt)).

(** what the slice taken from the scratch space holds *)
Definition stale (l : GL) (avail : Z) : list Z := map (fun i => val (garbage_i64 (avail - s_plain sp l) i)) (seq 0 n).
Lemma int_val : forall t (x : int t), Int (val x) = x.
Proof. intros t [z]. reflexivity. Qed.

Lemma plane_noise : measures -> forall p l b bits avail, M.ba_data b <> [] ->
  0 <= s_plain sp l -> 0 <= cost l ->
  s_plain sp l + 8 * 2 ^ Z.of_nat log + cost l <= avail ->
  TN.BitArray_noise L F p (ba_of l b) tt (map Int bits) tt avail = Some (h (N.ba_noise log tor phase (stale l avail) b bits)).
Proof.
  intros (H0 & HM) p l b bits avail NE P1 P2 SP.
  assert (PN : 0 < 2 ^ Z.of_nat log) by (apply Z.pow_pos_nonneg; lia).
  unfold TN.BitArray_noise. unfold TextMemFacts.ba_of. cbn [T.BitArray_data].
  destruct (M.ba_data b) as [|x0 xs0] eqn:ED; [congruence|]. rewrite <- ED. rewrite index0. rewrite ED at 1. cbn [map nth_error].
  change (Scratch_take_glwe_plaintext L avail (GLWE_glwe_layout L (l, x0)))
    with (given avail (s_plain sp l) (Some (garbage avail 0%nat, avail - s_plain sp l))).
  unfold given. rewrite (proj2 (Z.leb_le _ _)) by lia.
  change (Module_n L tt) with (@Int USize (2 ^ Z.of_nat log)).
  unfold stale. set (s1 := avail - s_plain sp l).
  change (Scratch_take_slice L s1 (Int (2 ^ Z.of_nat log)))
    with (given s1 (8 * 2 ^ Z.of_nat log) (Some (map (garbage_i64 s1) (seq 0 (Z.to_nat (2 ^ Z.of_nat log))), s1 - 8 * 2 ^ Z.of_nat log))).
  unfold given. rewrite (proj2 (Z.leb_le _ _)) by (unfold s1; lia).
  unfold chunks, val at 1 2. rewrite (proj2 (Z.eqb_neq _ _)) by lia.
  replace (Z.to_nat (2 ^ Z.of_nat log)) with n by (unfold G.ring; rewrite <- (Nat2Z.id (2 ^ log)); f_equal; rewrite Nat2Z.inj_pow; reflexivity).
  rewrite map_length, pieces_map, pieces_chunks.
  set (s2 := s1 - 8 * 2 ^ Z.of_nat log).
  assert (S2 : cost l <= s2) by (unfold s2, s1; lia).
  cbv zeta. rewrite H0.
  match goal with |- match for_each _ ?body _ with _ => _ end = _ => set (bd := body) end.
  assert (LOOP : forall chs cts pt d a, 0 <= a ->
    exists pt' d', for_each (combine (map (map Int) chs) (map (pair l) cts)) bd (pt, map Int d, h a) =
      Some (pt', d', h (Z.max a (N.rows_noise tor phase d chs cts)))).
  { clear - ENC S2 HM. induction chs as [|ch chs IH]; intros [|ct cts] pt d a A0; cbn [N.rows_noise].
    1-3: exists pt, (map Int d); rewrite Z.max_l by lia; reflexivity.
    cbn [map combine for_each]. unfold bd at 1.
    match goal with |- context[for_mut (combine (map Int d) _) ?b0 tt] =>
      destruct (zip_fst _ _ b0 (fun (x : int U8) (_ : int I64) => cast I64 x) (map Int ch) (map Int d)) as (t8 & E8 & W8); [reflexivity|] end.
    rewrite E8. cbv zeta. rewrite W8.
    rewrite (zip_over_map _ _ _ _ Int Int (fun x _ => x) (fun (x : int U8) (_ : int I64) => cast I64 x)) by (intros; reflexivity).
    set (d' := M.zip_over (fun x _ => x) ch d).
    change (GLWEPlaintext_encode_vec_i64 L pt (map Int d') (lit 2)) with (Some (enc 2 (map val (map (@Int I64) d')))).
    rewrite ENC, map_map. change (map (fun x => val (@Int I64 x)) d') with (map (fun x => x) d'). rewrite map_id. cbn beta iota.
    destruct (HM l ct d' s2 S2) as (pt' & st & E & HS).
    match goal with |- context [GLWE_noise F ?a1 ?a2 ?a3 ?a4 ?a5] =>
      change (GLWE_noise F a1 a2 a3 a4 a5) with (GLWE_noise F ((l, ct) : GLWE L) (tt : Module L) (d' : GLWEPlaintext L) (tt : Secret L) (s2 : Scratch L)) end.
    rewrite E. rewrite (HS a A0).
    destruct (IH cts pt' d' (Z.max a (N.ct_noise tor (phase ct) d')) ltac:(lia)) as (pt2 & d2 & IE). exists pt2, d2. etransitivity; [exact IE|].
    rewrite Z.max_assoc. reflexivity. }
  destruct (LOOP (Par.chunks_of (length bits) n bits) (M.ba_data b) (garbage avail 0%nat) (map (fun i => val (garbage_i64 s1 i)) (seq 0 n)) 0 ltac:(lia)) as (pt' & d' & E).
  rewrite map_map in E. rewrite (map_ext (fun x => Int (val (garbage_i64 s1 x))) (garbage_i64 s1)) in E by (intro; apply int_val).
  match goal with |- match ?e with _ => _ end = _ => match type of E with ?e' = _ => change e with e' end end.
  rewrite E. rewrite Z.max_r by apply rows_nonneg. reflexivity.
Qed.

Notation bit_at i := (fun (y : Z) (_ : Z) => Z.b2z (Z.testbit y (Z.of_nat i))).

(** The text is the model: the panic and every number. *)
Theorem C106_noise : measures -> forall p l m data avail,
  Forall (fun b => M.ba_data b <> []) (M.m_planes m) ->
  0 <= s_plain sp l -> 0 <= cost l ->
  s_plain sp l + 8 * 2 ^ Z.of_nat log + cost l <= avail ->
  TN.Memory_noise L F p (mem_of l m) tt (map Int data) tt avail =
  option_map (map h) (N.mem_noise log tor phase (fun _ => stale l avail) m data).
Proof.
  intros HM p l m data avail NE P1 P2 SP.
  unfold TN.Memory_noise, TextMemFacts.mem_of. cbn [T.Memory_size T.Memory_bits].
  unfold len. rewrite !map_length. unfold N.mem_noise.
  set (np := length (M.m_planes m)).
  destruct (Nat.ltb_spec 0 np) as [PP|PP].
  2: { replace np with 0%nat by lia. reflexivity. }
  destruct (check_text (length data) np (M.m_size m) PP) as [C1 C2]. cbv zeta. rewrite C1, C2.
  destruct (length data / np <=? M.m_size m)%nat; [|reflexivity]. clear C1 C2 PP.
  unfold filled, for_range, lit, val at 1 2 3 4. rewrite Z.sub_0_r, !Nat2Z.id.
  match goal with |- match for_each _ ?body _ with _ => _ end = _ => set (bd := body) end.
  set (size := M.m_size m) in *.
  set (one := fun ib => N.ba_noise log tor phase (stale l avail) (snd ib) (M.zip_over (bit_at (fst ib)) data (repeat 0 size))).
  assert (LOOP : forall bs ds B done rest, M.m_planes m = ds ++ bs -> length done = length ds -> length rest = length bs ->
    length B = size ->
    (forall i, M.zip_over (bit_at i) data B = M.zip_over (bit_at i) data (repeat 0 size)) ->
    exists B', for_each (counting (length bs) (Z.of_nat (length ds))) bd (map Int B, done ++ rest) =
      Some (B', done ++ map h (map one (combine (seq (length ds) (length bs)) bs)))).
  { clear - ENC HM P1 P2 SP NE. induction bs as [|b bs IH]; intros ds B done rest PL LD LR LB HB.
    - exists (map Int B). destruct rest; [|discriminate]. reflexivity.
    - destruct rest as [|r rest]; [discriminate|]. cbn [length counting for_each].
      assert (F1 : M.ba_data b <> []). { rewrite Forall_forall in NE. apply NE. rewrite PL. apply in_or_app. right. left. reflexivity. }
      unfold bd at 1. rewrite PL.
      match goal with |- context[for_mut (combine _ _) ?b0 tt] =>
        destruct (zip_fst _ _ b0 (fun (y : int U32) (_ : int U8) => u32_bit L y (Int (Z.of_nat (length ds)))) (map Int data) (map Int B)) as (t4 & E4 & W4); [reflexivity|] end.
      rewrite E4. cbv zeta. rewrite W4.
      rewrite (zip_over_map _ _ _ _ Int Int (bit_at (length ds)) (fun (y : int U32) (_ : int U8) => u32_bit L y (Int (Z.of_nat (length ds)))) ltac:(reflexivity)).
      rewrite HB. set (B1 := M.zip_over (bit_at (length ds)) data (repeat 0 size)).
      rewrite map_app. cbn [map]. rewrite <- (map_length (ba_of l) ds). rewrite index_app. rewrite map_length.
      rewrite (plane_noise HM p l b B1 avail F1 P1 P2 SP). rewrite <- LD. rewrite store_app.
      assert (LB1 : length B1 = size) by (unfold B1; rewrite zip_over_len, repeat_length; reflexivity).
      destruct (IH (ds ++ [b]) B1 (done ++ [h (one (length ds, b))]) rest) as (B' & E).
      { rewrite <- app_assoc. exact PL. }
      { rewrite !app_length, LD. reflexivity. }
      { cbn in LR. lia. }
      { exact LB1. }
      { intro i. unfold B1. apply (zip_over_again _ _ (fun y => Z.b2z (Z.testbit y (Z.of_nat i))) (fun y => Z.b2z (Z.testbit y (Z.of_nat (length ds))))). }
      exists B'. rewrite app_length in E. cbn [length] in E.
      replace (Z.of_nat (length done) + 1) with (Z.of_nat (length ds + 1)) by lia.
      replace (done ++ h (N.ba_noise log tor phase (stale l avail) b B1) :: rest) with ((done ++ [h (one (length ds, b))]) ++ rest) by (rewrite <- app_assoc; reflexivity).
      etransitivity; [exact E|]. rewrite <- app_assoc. cbn [combine seq map fst snd app]. rewrite LD. replace (length ds + 1)%nat with (Datatypes.S (length ds)) by lia. reflexivity. }
  destruct (LOOP (M.m_planes m) [] (repeat 0 size) [] (repeat (f64_zero F) np)) as (B' & E); try reflexivity.
  - apply repeat_length.
  - apply repeat_length.
  - cbn [app length] in E. rewrite map_rep in E. change (Z.of_nat 0) with 0 in E. unfold np.
    replace (Z.to_nat (val (@Int USize (Z.of_nat size)))) with size by (unfold val; now rewrite Nat2Z.id).
    replace (Z.to_nat (val (@Int USize (Z.of_nat (length (M.m_planes m)))))) with np by (unfold val; now rewrite Nat2Z.id).
    match goal with |- match ?e with _ => _ end = _ => match type of E with ?e' = _ => change e with e' end end.
    rewrite E. reflexivity.
Qed.

(** So what the text reports for a memory as it is allocated is what C75 says: the largest
    deviation from the words' bits and, where the last ciphertext of a plane has no word, from
    the bits one ciphertext earlier, or from whatever the scratch space held. *)
Theorem C106_reported : measures -> forall p l m ws avail, 0 < Verif.Noise.t_q tor -> ws <> [] ->
  PropMeasure.measurable log phase m (length ws) ->
  0 <= s_plain sp l -> 0 <= cost l ->
  s_plain sp l + 8 * 2 ^ Z.of_nat log + cost l <= avail ->
  exists ns, TN.Memory_noise L F p (mem_of l m) tt (map Int ws) tt avail = Some (map h ns) /\ length ns = 32%nat /\
    forall i b, nth_error (M.m_planes m) i = Some b -> forall e, 0 <= e ->
      (nth i ns 0 <= e <->
       forall r x c, nth_error (M.ba_data b) r = Some x -> (c < n)%nat ->
         Verif.Noise.tnear (Verif.Noise.t_q tor) e (nth c (phase x) 0)
           (Verif.Noise.t_delta tor * PropMeasure.reference log ws (fun _ => stale l avail) i r c)).
Proof.
  intros HM p l m ws avail Q NW MM P1 P2 SP.
  destruct (PropMeasure.C75_measured _ log tor phase (fun _ => stale l avail) m ws Q MM) as (ns & EN & LN & H).
  { intros _. unfold stale. rewrite map_length, seq_length. reflexivity. }
  exists ns. split; [|split; [exact LN|exact H]]. rewrite (C106_noise HM p l m ws avail); auto; [now rewrite EN|].
  destruct MM as (_ & _ & MF). apply Forall_forall. intros b I. rewrite Forall_forall in MF. destruct (MF b I) as (DC & _).
  intros E. rewrite E in DC. cbn [length] in DC. destruct ws as [|w ws]; [congruence|]. clear - DC.
  unfold Verif.Word.div_ceil in DC. destruct (G.ring log) as [|k]; [discriminate|].
  assert (D : ((length (w :: ws) + k) / Datatypes.S k = 0)%nat) by congruence.
  cbn [length] in D. apply Nat.div_small_iff in D; lia.
Qed.
End Noise.
Print Assumptions C106_noise.
Print Assumptions C106_reported.

(** The registers' case: three words in a ring of two, 32 planes of two ciphertexts, the
    scratch space full of sevens, a deviation of 3; the second ciphertext is compared with the
    first one's second word.  The numbers are the distances themselves. *)
Definition ex_sp : space nat nat nat :=
  {| s_glwe := fun _ => 64; s_rotate := 8; s_trace := fun _ _ _ => 16; s_rotation := fun _ _ => 24;
     s_retrieval := fun _ _ => 32; s_select := fun _ _ => 40; s_normalize := 8; s_bit := fun _ _ _ => 16;
     s_pack := fun _ _ _ => 16; s_plain := fun _ => 64; s_encrypt := fun _ => 8; s_decrypt := fun _ => 8 |}.
Definition ex_L := lib (G.Ideal 1) ex_sp (fun _ _ => repeat 7 2) (fun _ _ => Int 7) (fun _ => 2) (fun _ x => x) (fun _ x => x) (fun s : nat => s).
Definition ex_F : meter ex_L := {|
  f64 := Z; Stats := Z; f64_MIN := 0; f64_zero := 0; f64_max := Z.max; f64_log2 := fun x => x; Stats_max := fun x => x;
  GLWE_noise := fun (c : GLWE ex_L) _ (pt : GLWEPlaintext ex_L) _ (s : Scratch ex_L) =>
    (if (Z.leb 8 s) then Some ([] : GLWEPlaintext ex_L, N.ct_noise (Verif.Noise.Torus 256 64 31) (snd c) pt) else None) |}.
Lemma ex_measures : measures (G.Ideal 1) ex_sp (fun _ _ => repeat 7 2) (fun _ _ => Int 7) (fun _ => 2) (fun _ x => x) (fun _ x => x) (fun s : nat => s)
  ex_F (Verif.Noise.Torus 256 64 31) (fun c => c) (fun x => x) (fun _ => 8).
Proof.
  split; [reflexivity|]. intros l c pt s H. exists []. eexists. split; [cbn [ex_F GLWE_noise snd]; rewrite (proj2 (Z.leb_le 8 s) H); reflexivity|]. reflexivity.
Qed.
Definition ex_memory := mem_of (G.Ideal 1) ex_sp (fun _ _ => repeat 7 2) (fun _ _ => Int 7) (fun _ => 2) (fun _ x => x) (fun _ x => x) (fun s : nat => s).
Example C106_case :
  TN.Memory_noise ex_L ex_F (Build_profile true true) (ex_memory 0%nat PropMeasure.ex_full) tt (map Int [0; 0xFFFFFFFF; 0; 0]) tt 88 = Some (repeat 3 32) /\
  TN.Memory_noise ex_L ex_F (Build_profile true true) (ex_memory 0%nat PropMeasure.ex_full) tt (map Int [0; 0xFFFFFFFF; 0; 0]) tt 87 = None /\
  (exists ns, TN.Memory_noise ex_L ex_F (Build_profile true true) (ex_memory 0%nat PropMeasure.ex_mem) tt (map Int [0; 0xFFFFFFFF; 0]) tt 88 = Some ns /\ Forall (fun x => 60 <= x) ns).
Proof. split; [vm_compute; reflexivity|]. split; [vm_compute; reflexivity|]. eexists. split; [vm_compute; reflexivity|]. repeat constructor; intro; discriminate. Qed.
