(** * The shadow VM's cycle (proofs) *)
Require Import ZArith Lia Bool List Arith.
Require Import ZifyBool.
From Verif Require Import Word Isa Bits Codec DecodeSpec DecodeFacts EvalPlain EvalSpec EvalFacts ListFacts
  DebugVM TestRunSpec TestRunFacts TestStep IsaSplit DebugSpec.
Import ListNotations.
Open Scope Z_scope.
Ltac Zify.zify_post_hook ::= idtac.

(** ** Maps *)
Lemma build_map_some A (id : A -> Z) ev ops : (forall o, In o ops -> ev o <> None) ->
  forall m, exists m', build_map id ev ops m = Some m'.
Proof.
  induction ops as [|o t IH]; intros H m; cbn; [eauto|].
  destruct (ev o) eqn:E; [|exfalso; eapply H; [left; reflexivity|exact E]].
  apply IH. intros. apply H. right. auto.
Qed.
Lemma build_map_none A (id : A -> Z) ev ops o : In o ops -> ev o = None ->
  forall m, build_map id ev ops m = None.
Proof.
  induction ops as [|o' t IH]; intros H E m; cbn; [destruct H|]. destruct H as [->|H].
  - rewrite E. reflexivity.
  - destruct (ev o'); auto.
Qed.
Lemma build_map_out A (id : A -> Z) ev ops k : ~ In k (map id ops) ->
  forall m m', build_map id ev ops m = Some m' -> lookup k m' = lookup k m.
Proof.
  induction ops as [|o t IH]; intros H m m' E; cbn in *; [congruence|].
  destruct (ev o) eqn:Ev; [|discriminate].
  rewrite (IH ltac:(tauto) _ _ E). cbn. destruct (Z.eqb_spec k (id o)); [|reflexivity].
  exfalso. apply H. left. auto.
Qed.
Lemma build_map_in A (id : A -> Z) ev ops o : NoDup (map id ops) -> In o ops ->
  forall m m', build_map id ev ops m = Some m' -> lookup (id o) m' = ev o.
Proof.
  induction ops as [|o' t IH]; intros HN H m m' E; cbn in *; [tauto|].
  inversion HN as [|? ? N1 N2]; subst.
  destruct (ev o') eqn:Ev; [|discriminate]. destruct H as [->|H].
  - rewrite (build_map_out _ _ _ _ _ N1 _ _ E). cbn. rewrite Z.eqb_refl. congruence.
  - eapply IH; eauto.
Qed.
Ltac nodup := repeat (constructor; [cbn; intuition discriminate|]); constructor.
Lemma nodup_rd : NoDup (map rd_id RD_RV32I). Proof. nodup. Qed.
Lemma nodup_rdm : NoDup (map rd_id RD_RV32M). Proof. nodup. Qed.
Lemma nodup_pc : NoDup (map pc_id PC_LIST). Proof. nodup. Qed.
Lemma nodup_ram : NoDup (map ram_id RAM_LIST). Proof. nodup. Qed.
Lemma rd_total o imm x y pc ram : In o RD_RV32I -> rd_eval o imm x y pc ram <> None.
Proof. intros H. destruct o; try discriminate; cbn in H; intuition discriminate. Qed.
Lemma in_pc o : In o PC_LIST. Proof. destruct o; cbn; tauto. Qed.
Lemma in_ram o : In o RAM_LIST. Proof. destruct o; cbn; tauto. Qed.

Lemma rd_map o imm x y pc ram : In o RD_RV32I ->
  exists m v, build_map rd_id (fun o => rd_eval o imm x y pc ram) RD_RV32I [] = Some m /\
    lookup (rd_id o) m = Some v /\ rd_eval o imm x y pc ram = Some v.
Proof.
  intros H. destruct (build_map_some _ rd_id (fun o => rd_eval o imm x y pc ram) RD_RV32I
    (fun o Ho => rd_total o imm x y pc ram Ho) []) as [m E].
  pose proof (build_map_in _ _ _ _ _ nodup_rd H _ _ E) as L. cbv beta in L.
  destruct (rd_eval o imm x y pc ram) as [v|] eqn:Ev; [|exfalso; eapply rd_total; eauto].
  exists m, v. auto.
Qed.
Lemma ram_map o rs2 ram off :
  exists m, build_map ram_id (fun o => Some (ram_eval o rs2 ram off)) RAM_LIST [] = Some m /\
    lookup (ram_id o) m = Some (ram_eval o rs2 ram off).
Proof.
  destruct (build_map_some _ ram_id (fun o => Some (ram_eval o rs2 ram off)) RAM_LIST ltac:(congruence) []) as [m E].
  exists m. split; [exact E|]. exact (build_map_in _ _ _ _ _ nodup_ram (in_ram o) _ _ E).
Qed.
Lemma pc_map o imm x y pc :
  exists m, build_map pc_id (fun o => Some (pc_eval o imm x y pc)) PC_LIST [] = Some m /\
    lookup (pc_id o) m = Some (pc_eval o imm x y pc).
Proof.
  destruct (build_map_some _ pc_id (fun o => Some (pc_eval o imm x y pc)) PC_LIST ltac:(congruence) []) as [m E].
  exists m. split; [exact E|]. exact (build_map_in _ _ _ _ _ nodup_pc (in_pc o) _ _ E).
Qed.

(** ** The whole cycle in closed form *)
Definition addr_of (imm x : Z) : Z := wsub (wadd imm x) (shl32 1 18).

Lemma dcycle_eq s i o1 o2 o3 rs2 rs1 rd x y ram k :
  entry_is (drom s) (Z.to_nat (Z.shiftr (dpc s) 2)) i ->
  ops_of i = (o1, o2, o3) -> regs_of i = (rs2, rs1, rd) -> In o1 RD_RV32I ->
  nth_error (dregs s) (Z.to_nat rs1) = Some x -> nth_error (dregs s) (Z.to_nat rs2) = Some y ->
  ram_index s (addr_of (imm_of i) x) = Some k -> nth_error (dram s) k = Some ram ->
  (Z.to_nat rd < length (dregs s))%nat ->
  exists v r r' d s',
    rd_eval o1 (imm_of i) x y (dpc s) ram = Some v /\
    set_nth (dregs s) (Z.to_nat rd) v = Some r /\ set_nth r 0 0 = Some r' /\
    set_nth (dram s) k (ram_eval o2 y ram (Z.land (addr_of (imm_of i) x) 3)) = Some d /\
    dcycle RD_RV32I s = Some s' /\ dpc s' = pc_eval o3 (imm_of i) x y (dpc s) /\
    dregs s' = r' /\ dram s' = d /\ drom s' = drom s /\ ram_size s' = ram_size s /\ rom_size s' = rom_size s.
Proof.
  intros HE Ho Hr Hin Hx Hy Hk Hram Hrd. unfold entry_is in HE. rewrite Ho, Hr in HE.
  destruct HE as (E1 & E2 & E3 & E4 & E5 & E6 & E7).
  unfold dcycle, read_instructions. rewrite E1, E2, E3, E4, E5, E6, E7.
  unfold read_registers. cbn [lat with_lat dregs rs1_addr rs2_addr]. rewrite Hx, Hy.
  unfold read_ram. cbn [lat with_lat dregs dram rs1_val imm]. fold (addr_of (imm_of i) x).
  unfold ram_index in *. cbn [with_lat ram_size]. rewrite Hk, Hram.
  unfold update_registers. cbn [lat with_lat dregs dram dpc rs1_val rs2_val ram_val imm rdu rd_addr].
  destruct (rd_map o1 (imm_of i) x y (dpc s) ram Hin) as (m & v & M1 & M2 & M3). rewrite M1, M2.
  destruct (set_nth_some _ (dregs s) (Z.to_nat rd) v Hrd) as [r R1]. rewrite R1.
  pose proof (set_nth_length _ _ _ _ _ R1) as L1.
  destruct (set_nth_some _ r 0%nat 0 ltac:(lia)) as [r' R2]. rewrite R2.
  unfold update_ram. cbn [lat with_lat dregs dram dpc rs1_val rs2_val ram_val imm rdu rd_addr ram_addr mu].
  destruct (ram_map o2 y ram (Z.land (addr_of (imm_of i) x) 3)) as (m2 & M4 & M5). rewrite M4, M5.
  unfold ram_index. cbn [with_lat ram_size]. rewrite Hk.
  destruct (set_nth_some _ (dram s) k (ram_eval o2 y ram (Z.land (addr_of (imm_of i) x) 3))
    (nth_error_Some_lt _ _ _ _ Hram)) as [d D1].
  rewrite D1. unfold update_pc. cbn [lat with_lat dregs dram dpc rs1_val rs2_val ram_val imm rdu rd_addr pcu].
  destruct (pc_map o3 (imm_of i) x y (dpc s)) as (m3 & M6 & M7). rewrite M6, M7.
  exists v, r, r', d. eexists. repeat split; eauto.
Qed.

(** ** Addresses *)
Lemma addr_of_ea imm x off : imm = to_word off -> addr_of imm x = to_word (x + off - 2 ^ 18).
Proof.
  intros ->. unfold addr_of. change (shl32 1 18) with (2 ^ 18). unfold wadd, wsub, u32, to_word.
  change 4294967296 with (2 ^ 32). rewrite Zminus_mod_idemp_l.
  rewrite <- (Zminus_mod_idemp_l (off mod 2 ^ 32 + x)). rewrite Z.add_mod_idemp_l by lia.
  rewrite Zminus_mod_idemp_l. f_equal. lia.
Qed.
Lemma to_word_sub a b : to_word (to_word a - b) = to_word (a - b).
Proof. unfold to_word. apply Zminus_mod_idemp_l. Qed.

(** the word index and byte offset of an address inside RAM *)
Lemma addr_in base n a e :
  base_ok base n -> base <= e < base + 4 * n -> a = to_word (e - 2 ^ 18) ->
  (Z.shiftr a 2) mod n = (e - base) / 4 /\ a mod 4 = (e - base) mod 4 /\ e mod 4 = (e - base) mod 4.
Proof.
  intros (Hn & Hb & Hbn & HB) He Ha. rewrite Z.shiftr_div_pow2 by lia. change (2 ^ 2) with 4.
  destruct HB as [HB|[[q Hq] [p Hp]]].
  - assert (a = e - base). { rewrite Ha, <- HB. apply to_word_small. unfold word. lia. }
    subst a. rewrite H. split; [|split; [reflexivity|]].
    + apply Z.mod_small. split; [apply Z.div_pos; lia|apply Z.div_lt_upper_bound; lia].
    + rewrite HB. change (2 ^ 18) with (65536 * 4). replace (e - 65536 * 4) with (e + (-65536) * 4) by lia.
      rewrite Z.mod_add by lia. reflexivity.
  - assert (Hq' : exists t, a = e - base + t * (4 * n)).
    { exists (p - q * ((e - 2 ^ 18) / 2 ^ 32)).
      rewrite Ha. unfold to_word. rewrite Z.mod_eq by lia. rewrite Hq at 1.
      nia. }
    destruct Hq' as [t ->].
    replace (e - base + t * (4 * n)) with (e - base + (t * n) * 4) by lia.
    rewrite Z.div_add by lia. rewrite Z.mod_add by lia. rewrite Z.mod_add by lia.
    split; [|split; [reflexivity|]].
    + apply Z.mod_small. split; [apply Z.div_pos; lia|apply Z.div_lt_upper_bound; lia].
    + replace (e - base) with (e + (- (p * n) - 65536) * 4) by lia.
      rewrite Z.mod_add by lia. reflexivity.
Qed.
Lemma land3 x : Z.land x 3 = x mod 4.
Proof. change 3 with (Z.ones 2). rewrite Z.land_ones by lia. reflexivity. Qed.
