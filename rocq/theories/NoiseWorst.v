(** * An implementation with exactly the allowed noise
    Every primitive computes its exact result and adds its whole noise bound to
    every coefficient.  It shows that [noisy] can be met for every choice of
    bounds, and how fast errors really grow. *)
Require Import ZArith List Bool Lia.
Require Import Verif.Word Verif.ListFacts Verif.Bdd Verif.CircPcUpdate Verif.Glwe Verif.GlweFacts Verif.EncMem Verif.MemSpec
  Verif.EncVM Verif.EncSpec Verif.EncFacts Verif.Noise Verif.NoiseFacts Verif.NoiseMem.
Import ListNotations.
Ltac Zify.zify_post_hook ::= idtac.
Open Scope Z_scope.

(** the first [n] coefficients *)
Definition fit (n : nat) (c : list Z) : list Z := map (fun i => nth i c 0) (seq 0 n).
Definition off (e : Z) (n : nat) (c : list Z) : list Z := map (Z.add e) (fit n c).

Definition Worst (log : nat) (t : torus) (z : noise) : alg poly bool (list Z) :=
  let n := ring log in
  let d := t_delta t in {|
  log_n := log;
  a_zero := zero_poly log;
  a_rot := fun k c => off (n_rot z) n (rotate log k (fit n c));
  a_trace := fun c => off (n_trace z) n (const_poly log (nth 0 (fit n c) 0));
  a_add := fun c e => off (n_add z) n (padd (fit n c) (fit n e));
  a_sub := fun c e => off (n_sub z) n (psub (fit n c) (fit n e));
  a_crot := fun (b : bool) k c => off (n_crot z) n (if b then rotate log k (fit n c) else c);
  a_cswap := fun (b : bool) c e => (off (n_cswap z) n (if b then e else c), off (n_cswap z) n (if b then c else e));
  a_retrieve := fun bs cs => off (n_retrieve z) n (nth (bits_val bs) cs []);
  a_pack := fun cs => off (n_pack z) 32 (map (fun c => nth 0 (fit n c) 0) cs);
  a_bit := fun f i => off (n_bit z) n (const_poly log (nth i (fit 32 f) 0));
  a_boot := fun f i => decode t (nth i (fit 32 f) 0) =? 1;
  a_pzero := false;
  a_fzero := repeat 0 32;
  a_select := fun m bs => off (n_select z) 32 (match find_key (bits_val bs) m with Some f => f | None => repeat 0 32 end);
  a_ident := fun bs => off (n_fresh z) 32 (map (fun b : bool => d * Z.b2z b) bs);
  a_circ2 := fun k a b => off (n_fresh z) 32 (map (Z.mul d) (fhe_of_option (circ2_word k (pack_bits a) (pack_bits b))));
  a_pcup := fun o a b p i => off (n_fresh z) 32 (map (Z.mul d) (fhe_of_option (eval_circuit pc_update_circuit
    (inp_pc (pack_bits o) (pack_bits a) (pack_bits b) (pack_bits p) (pack_bits i)))));
  a_zero_byte := fun k f => off (n_bytes z) 32 (zero_byte k (fit 32 f));
  a_sext := fun k f => off (n_bytes z) 32 (sext_byte k (fit 32 f));
  a_splice8 := fun i j f g => off (n_bytes z) 32 (splice 8 i j (fit 32 f) (fit 32 g));
  a_splice16 := fun i j f g => off (n_bytes z) 32 (splice 16 i j (fit 32 f) (fit 32 g)) |}.

Lemma fit_nth n c i : (i < n)%nat -> nth i (fit n c) 0 = nth i c 0.
Proof.
  intro H. unfold fit. rewrite (nth_indep _ 0 (nth 0 c 0)) by (rewrite map_length, seq_length; auto).
  rewrite (map_nth (fun i => nth i c 0) (seq 0 n) 0%nat i), seq_nth; auto.
Qed.
Lemma fit_length n c : length (fit n c) = n.
Proof. unfold fit. now rewrite map_length, seq_length. Qed.
Lemma off_near q e n c y i : 0 <= e -> (i < n)%nat -> nth i c 0 = nth i y 0 -> tnear q e (nth i (fit n (off e n c)) 0) (nth i y 0).
Proof.
  intros E H Y. rewrite fit_nth by auto. unfold off. rewrite (nth_indep _ 0 (e + 0)) by (rewrite map_length, fit_length; auto).
  rewrite map_nth, fit_nth, Y by auto. exists 0. lia.
Qed.
Lemma map_fit_nth n cs k i : (i < n)%nat -> nth i (nth k cs []) 0 = nth i (nth k (map (fit n) cs) []) 0.
Proof.
  intro H. destruct (le_lt_dec (length cs) k) as [L|L].
  - now rewrite (nth_overflow cs), (nth_overflow (map (fit n) cs)) by (rewrite ?map_length; auto).
  - rewrite (nth_indep (map (fit n) cs) [] (fit n [])) by (rewrite map_length; auto). rewrite map_nth, fit_nth; auto.
Qed.

Lemma worst_noisy log t z : torus_ok t -> noise_pos z ->
  noisy log t z (fit (ring log)) (fit 32) (fun b : bool => b) (Worst log t z).
Proof.
  intros T Z0. pose proof Z0 as Z1. unfold noise_pos in Z1.
  constructor; cbn [Worst log_n a_rot a_trace a_add a_sub a_crot a_cswap a_retrieve a_pack a_bit a_boot a_pzero a_fzero a_select
    a_ident a_circ2 a_pcup a_zero_byte a_sext a_splice8 a_splice16 fst snd].
  - reflexivity.
  - exact Z0.
  - intro c. apply fit_length.
  - intro f. apply fit_length.
  - intros k c i Hi. apply off_near; auto; lia.
  - intros c i Hi. apply off_near; auto; lia.
  - intros c e i Hi. apply off_near; auto; lia.
  - intros c e i Hi. apply off_near; auto; lia.
  - intros p k c i Hi. apply off_near; auto; [lia|]. destruct p; auto. now rewrite fit_nth.
  - intros p c e i Hi. apply off_near; auto; [lia|]. destruct p; now rewrite fit_nth.
  - intros p c e i Hi. apply off_near; auto; [lia|]. destruct p; now rewrite fit_nth.
  - intros ps cs i Hi. apply off_near; auto; [lia|]. rewrite map_id. now apply map_fit_nth.
  - intros cs L i Hi. apply off_near; auto; lia.
  - intros f i Hi j Hj. apply off_near; auto; lia.
  - intros f i b Hi H. pose proof T as (_ & _ & _ & _ & T5).
    rewrite (decode_ok t _ _ (Z.b2z b) T T5 ltac:(destruct b; auto) H). now destruct b.
  - reflexivity.
  - intros i Hi. rewrite fit_nth by auto. apply tnear_exact.
  - intros m ps i Hi. apply off_near; auto; [lia|]. rewrite map_id. destruct (find_key _ _); auto. now rewrite fit_nth.
  - intros ps L i Hi. apply off_near; auto; lia.
  - intros k a b w E i Hi. rewrite !map_id in E. rewrite E. apply off_near; auto; lia.
  - intros o a b p i w E j Hj. rewrite !map_id in E. rewrite E. apply off_near; auto; lia.
  - intros k f i Hi. apply off_near; auto; lia.
  - intros k f i Hi. apply off_near; auto; lia.
  - intros i j f g k Hk. apply off_near; auto; lia.
  - intros i j f g k Hk. apply off_near; auto; lia.
Qed.

(** ** exact encryptions *)
Section Exact.
Variable t : torus.
Notation d := (t_delta t).
Definition exact_ba (x : bitarray poly) : bitarray poly := BitArray (map (map (Z.mul d)) (ba_data x)) (ba_bits x).
Definition exact_mem (m : memory poly) : memory poly :=
  Memory (map exact_ba (m_planes m)) (m_size m) (m_bits m) (m_state m).
Definition exact_vm (v : evm poly bool (list Z)) : evm poly bool (list Z) :=
  let r := v_rom v in
  {| v_cycle := v_cycle v; v_debug := v_debug v; v_rom_bits := v_rom_bits v; v_rom_size := v_rom_size v;
     v_rom := ERoms (exact_mem (e_imm r)) (exact_mem (e_rs1 r)) (exact_mem (e_rs2 r)) (exact_mem (e_rd r))
                (exact_mem (e_rdu r)) (exact_mem (e_mu r)) (exact_mem (e_pcu r));
     v_regs := exact_mem (v_regs v); v_ram_bits := v_ram_bits v; v_ram_size := v_ram_size v;
     v_ram := exact_mem (v_ram v); v_pc := map (Z.mul d) (v_pc v); v_pcp := v_pcp v |}.

Lemma Forall2_map_l A B (R : A -> B -> Prop) (f : B -> A) xs : Forall (fun x => R (f x) x) xs -> Forall2 R (map f xs) xs.
Proof. induction 1; cbn; constructor; auto. Qed.
Lemma exact_mnear log m ws : holds log m ws -> mnear log t (fit (ring log)) 0 (exact_mem m) m.
Proof.
  intro H. pose proof (holds_data log m ws H) as D.
  unfold mnear, exact_mem. cbn [m_size m_bits m_state m_planes]. do 3 (split; [reflexivity|]).
  apply Forall2_map_l. eapply Forall_impl; [|exact D]. cbv beta. intros b [L _]. split; [reflexivity|].
  unfold exact_ba. cbn [ba_data]. apply Forall2_map_l. eapply Forall_impl; [|exact L]. cbv beta. intros p Lp.
  split; auto. intros i Hi. rewrite fit_nth by auto. apply tnear_exact.
Qed.
Lemma exact_encrypts log rb mb v s : shows log rb mb v s ->
  encrypts log t (fit (ring log)) (fit 32) (fun b : bool => b) (Bounds 0 0 0 0) (exact_vm v) v.
Proof.
  intros ((R1 & R2 & R3 & R4 & R5 & R6 & R7) & S2 & S3 & S4 & S5 & S6 & S7 & S8 & S9 & _).
  unfold encrypts, exact_vm. cbn [v_cycle v_debug v_rom_bits v_rom_size v_rom v_regs v_ram_bits v_ram_size v_ram v_pc v_pcp
    e_imm e_rs1 e_rs2 e_rd e_rdu e_mu e_pcu b_rom b_regs b_ram b_pc].
  do 9 (split; [eapply exact_mnear; eassumption|]).
  split; [intros i Hi; rewrite fit_nth by auto; apply tnear_exact|]. split; [apply map_id|]. repeat split.
Qed.
End Exact.
