(** * The ideal library as an instance of the library of the translated text

    [TextEng.v] runs the translated interpreter over any algebra; here the
    parameters are those of the ideal functionality [Glwe.Ideal]: the two
    circuit tables the VM passes to the library itself are evaluated gate by
    gate, and blind selection looks its key up. *)
Require Import ZArith NArith Lia List Bool Permutation.
Require Verif.Glwe Verif.Bdd Verif.BddFacts Verif.CircFacts Verif.PropCirc Verif.LoadFacts Verif.TextEng.
From Verif Require Import RustEng.
Import ListNotations.
Module G := Verif.Glwe.
Module B := Verif.Bdd.

(** the generated tables (fhevm/src/codegen) *)
Definition table (c : Circuits) : B.circuit :=
  match c with
  | codegen_lui => Verif.CircLui.lui_circuit
  | codegen_jalr => Verif.CircJalr.jalr_circuit
  | codegen_auipc => Verif.CircAuipc.auipc_circuit
  | codegen_ram_offset => Verif.CircRamOffset.ram_offset_circuit
  | codegen_pc_update => Verif.CircPcUpdate.pc_update_circuit
  end.

(** [execute_bdd_circuit_multi_thread] (called at fhevm/src/ram_offset.rs:45-51,
    pc_update.rs:59-65): the output bits as constants. *)
Definition ideal_bdd (log : nat) (c : Circuits) (bits : list bool) : list G.poly :=
  match B.eval_bits (fun v => if (v <? B.input_bits (table c))%N then nth_error bits (N.to_nat v) else None)
          (B.bits_out (table c)) with
  | Some bs => map (fun b => G.const_poly log (Z.b2z b)) bs
  | None => []
  end.

Lemma eval_node_ext f g prev j n : (forall v, f v = g v) -> B.eval_node f prev j n = B.eval_node g prev j n.
Proof. intros H. destruct n; cbn; try reflexivity. now rewrite H. Qed.
Lemma eval_level_ext f g prev lv : (forall v, f v = g v) ->
  forall j, B.eval_level f prev j lv = B.eval_level g prev j lv.
Proof. intros H. induction lv as [|n r IH]; intros j; cbn; [reflexivity|]. now rewrite (eval_node_ext f g), IH. Qed.
Lemma eval_levels_ext f g ls : (forall v, f v = g v) ->
  forall prev, B.eval_levels f prev ls = B.eval_levels g prev ls.
Proof.
  intros H. induction ls as [|lv r IH]; intros prev; cbn; [reflexivity|].
  rewrite (eval_level_ext f g) by assumption. destruct (B.eval_level g prev 0 lv); [apply IH|reflexivity].
Qed.
Lemma eval_bits_ext f g cs : (forall v, f v = g v) -> B.eval_bits f cs = B.eval_bits g cs.
Proof.
  intros H. induction cs as [|c r IH]; cbn; [reflexivity|]. rewrite IH.
  destruct c as [w nodes]; cbn. destruct w; [reflexivity|]. now rewrite (eval_levels_ext f g).
Qed.
Lemma eval_bits_length f cs : forall bs, B.eval_bits f cs = Some bs -> length bs = length cs.
Proof.
  induction cs as [|c r IH]; cbn; intros bs H; [now injection H as <-|].
  destruct (B.eval_bit f c); [|discriminate]. destruct (B.eval_bits f r) eqn:E; [|discriminate].
  injection H as <-. cbn. now rewrite (IH _ eq_refl).
Qed.

Lemma word_of_bits bs : length bs = 32%nat -> G.fhe_of_word (B.pack_bits bs) = map Z.b2z bs.
Proof.
  intros H. unfold G.fhe_of_word.
  transitivity (map (fun i => Z.b2z (nth i bs false)) (seq 0 32)).
  - apply map_ext. intros i. f_equal. apply Verif.BddFacts.pack_testbit.
  - rewrite <- H, <- (map_map (fun i => nth i bs false) Z.b2z). f_equal. clear H.
    induction bs as [|b r IH]; cbn; [reflexivity|]. f_equal. rewrite <- seq_shift, map_map. exact IH.
Qed.
Lemma const_read log b : nth 0 (G.const_poly log b) 0%Z = b.
Proof.
  unfold G.const_poly, G.ring. destruct (2 ^ log)%nat eqn:E; [|reflexivity].
  exfalso. revert E. apply Nat.pow_nonzero. discriminate.
Qed.

Lemma agree log c bits f : length (B.bits_out (table c)) = 32%nat ->
  (forall v, (v < B.input_bits (table c))%N -> f v = nth_error bits (N.to_nat v)) ->
  (forall v, (v < B.input_bits (table c))%N -> exists b, f v = Some b) ->
  length (ideal_bdd log c bits) = 32%nat /\
  map (fun p : G.poly => nth 0 p 0%Z) (ideal_bdd log c bits) = G.fhe_of_option (B.eval_circuit (table c) f).
Proof.
  intros L F T.
  assert (In (table c) [Verif.CircLui.lui_circuit; Verif.CircJalr.jalr_circuit; Verif.CircAuipc.auipc_circuit;
                        Verif.CircRamOffset.ram_offset_circuit; Verif.CircPcUpdate.pc_update_circuit]) as I
    by (destruct c; cbn [table In]; auto 8).
  destruct (Verif.PropCirc.C24_total (table c) f (fun v => match f v with Some b => b | None => false end) I) as (w & E).
  { intros v H. destruct (T v H) as (b & ->). reflexivity. }
  rewrite E. unfold B.eval_circuit in E. unfold ideal_bdd.
  rewrite (eval_bits_ext _ (fun v => if (v <? B.input_bits (table c))%N then f v else None)).
  2:{ intros v. destruct (N.ltb_spec v (B.input_bits (table c))); [symmetry; auto|reflexivity]. }
  destruct (B.eval_bits _ _) as [bs|] eqn:Q in E |- *; [|discriminate].
  pose proof (eval_bits_length _ _ _ Q) as K. rewrite L in K.
  injection E as <-. split; [now rewrite map_length|].
  cbn [G.fhe_of_option]. rewrite (word_of_bits bs K), map_map. apply map_ext. intros b. apply const_read.
Qed.

Lemma bit_at a k : length a = 32%nat -> (k < 32)%nat ->
  Some (Z.testbit (B.pack_bits a) (Z.of_nat k)) = nth_error a k.
Proof.
  intros H K. rewrite Verif.BddFacts.pack_testbit. symmetry. apply nth_error_nth'. lia.
Qed.

Lemma ideal_circuits log : Verif.TextEng.circuits_agree (G.Ideal log) (ideal_bdd log).
Proof.
  split.
  - intros a b HA HB. cbn [G.a_pack G.a_circ2 G.Ideal G.circ2_word].
    apply (agree log codegen_ram_offset).
    + vm_compute. reflexivity.
    + intros v H. change (B.input_bits (table codegen_ram_offset)) with 64%N in H.
      rewrite Verif.CircFacts.inp2_f by assumption. unfold Verif.CircFacts.f2.
      destruct (N.ltb_spec v 32).
      * rewrite nth_error_app1 by lia. rewrite <- (bit_at a) by lia. now rewrite N_nat_Z.
      * rewrite nth_error_app2 by lia. rewrite HA. replace (N.to_nat v - 32)%nat with (N.to_nat (v - 32)) by lia.
        rewrite <- (bit_at b) by lia. now rewrite N_nat_Z.
    + intros v H. change (B.input_bits (table codegen_ram_offset)) with 64%N in H.
      rewrite Verif.CircFacts.inp2_f by assumption. eauto.
  - intros op x y pc imm HO HX HY HP HI. cbn [G.a_pack G.a_pcup G.Ideal].
    apply (agree log codegen_pc_update).
    + vm_compute. reflexivity.
    + intros v H. change (B.input_bits (table codegen_pc_update)) with 120%N in H.
      rewrite Verif.CircFacts.inp_pc_f by assumption. unfold Verif.CircFacts.fpc.
      assert (length (firstn 4 op) = 4%nat) as LO by (rewrite firstn_length; lia).
      destruct (N.leb_spec 100 v); [|destruct (N.leb_spec 68 v); [|destruct (N.leb_spec 36 v); [|destruct (N.leb_spec 4 v)]]].
      * do 4 rewrite nth_error_app2 by (rewrite ?LO, ?HX, ?HY, ?HP; lia).
        rewrite LO, HX, HY, HP. replace (N.to_nat v - 4 - 32 - 32 - 32)%nat with (N.to_nat (v - 100)) by lia.
        rewrite Verif.LoadFacts.nth_error_firstn. destruct (Nat.ltb_spec (N.to_nat (v - 100)) 20); [|lia].
        rewrite <- (bit_at imm) by lia. now rewrite N_nat_Z.
      * do 3 rewrite nth_error_app2 by (rewrite ?LO, ?HX, ?HY, ?HP; lia).
        rewrite LO, HX, HY, nth_error_app1 by lia.
        replace (N.to_nat v - 4 - 32 - 32)%nat with (N.to_nat (v - 68)) by lia.
        rewrite <- (bit_at pc) by lia. now rewrite N_nat_Z.
      * do 2 rewrite nth_error_app2 by (rewrite ?LO, ?HX, ?HY, ?HP; lia).
        rewrite LO, HX, nth_error_app1 by lia.
        replace (N.to_nat v - 4 - 32)%nat with (N.to_nat (v - 36)) by lia.
        rewrite <- (bit_at y) by lia. now rewrite N_nat_Z.
      * rewrite nth_error_app2 by (rewrite ?LO, ?HX, ?HY, ?HP; lia).
        rewrite LO, nth_error_app1 by lia.
        replace (N.to_nat v - 4)%nat with (N.to_nat (v - 4)) by lia.
        rewrite <- (bit_at x) by lia. now rewrite N_nat_Z.
      * rewrite nth_error_app1 by lia. rewrite Verif.LoadFacts.nth_error_firstn.
        destruct (Nat.ltb_spec (N.to_nat v) 4); [|lia]. rewrite <- (bit_at op) by lia. now rewrite N_nat_Z.
    + intros v H. change (B.input_bits (table codegen_pc_update)) with 120%N in H.
      rewrite Verif.CircFacts.inp_pc_f by assumption. eauto.
Qed.

(** ** blind selection does not depend on the order of the map *)
Lemma find_in {X} k (m : list (nat * X)) x : NoDup (map fst m) -> (G.find_key k m = Some x <-> In (k, x) m).
Proof.
  induction m as [|[k' y] r IH]; cbn; intros N; [split; [discriminate|tauto]|].
  inversion N as [|? ? NI NR]; subst. specialize (IH NR).
  destruct (G.find_key k r) as [z|] eqn:E.
  - split; intros H.
    + injection H as <-. right. now apply IH.
    + destruct H as [H|H].
      * injection H as -> ->. exfalso. apply NI. apply in_map_iff. exists (k, z). split; [reflexivity|].
        clear - E. revert E. induction r as [|[a b] r IH]; cbn; [discriminate|].
        destruct (G.find_key k r); intros E; [right; apply IH; exact E|].
        destruct (Nat.eqb_spec k a); [|discriminate]. injection E as <-. subst. now left.
      * now apply IH.
  - split; intros H.
    + destruct (Nat.eqb_spec k k'); [|discriminate]. injection H as <-. subst. now left.
    + destruct H as [H|H].
      * injection H as -> ->. now rewrite Nat.eqb_refl.
      * apply IH in H. discriminate.
Qed.
Lemma find_perm {X} k (m m' : list (nat * X)) : NoDup (map fst m) -> Permutation m m' ->
  G.find_key k m = G.find_key k m'.
Proof.
  intros N P.
  assert (NoDup (map fst m')) as N' by (eapply Permutation_NoDup; [apply Permutation_map; exact P|exact N]).
  destruct (G.find_key k m) as [x|] eqn:E; symmetry.
  - apply find_in; [assumption|]. apply (Permutation_in _ P). now apply find_in.
  - destruct (G.find_key k m') as [x|] eqn:E'; [|reflexivity].
    apply find_in in E'; [|assumption]. apply (Permutation_in _ (Permutation_sym P)) in E'.
    apply find_in in E'; [|assumption]. congruence.
Qed.
Lemma ideal_select log : Verif.TextEng.select_unordered (G.Ideal log).
Proof. intros m m' sel N P. cbn [G.a_select G.Ideal]. now rewrite (find_perm _ m m'). Qed.
