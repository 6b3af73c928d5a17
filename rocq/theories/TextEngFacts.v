(** * The text of the update operations and of prepare.rs against the models of them (helper lemmas)

    TextEnc.v is the text, run with the library of TextLib.v and TextEng.v;
    EncEval.v and Prepare.v are the models of what the functions compute,
    CycleScratch.v of the scratch space they use. *)
Require Import ZArith List Bool Lia Znat Permutation.
From Verif Require Import Rust RustIter RustLib RustEng TextLib TextLoop TextEng TextMemFacts.
Require Verif.Word Verif.Codec Verif.Glwe Verif.Par Verif.ParFacts Verif.EncMem Verif.MemOps Verif.Scratch
  Verif.CycleScratch Verif.EncEval Verif.Prepare Verif.PrepFacts Verif.EvalPlain.
Require Verif.TextInstr Verif.TextEnc Verif.TextFacts.
Module T := Verif.TextEnc.
Module E := Verif.EncEval.
Module Cd := Verif.Codec.
Module F := Verif.TextFacts.
Import ListNotations.
Open Scope Z_scope.

Ltac panic :=
  repeat (try reflexivity;
    match goal with |- _ = ?r => match r with context[match ?e with _ => _ end] =>
      lazymatch e with context[match _ with _ => _ end] => fail | _ => destruct e end end end);
  reflexivity.

Ltac needs :=
  repeat (match goal with |- context[Sc.need ?a ?b] => let H := fresh in destruct (Sc.need a b) as [[]|] eqn:H; cbn -[given Sc.need];
            rewrite ?given_need; cbn -[given Sc.need]; rewrite ?H; cbn -[given Sc.need] end;
          rewrite ?given_need; cbn -[given Sc.need];
          repeat match goal with H : Sc.need _ _ = _ |- _ => rewrite !H; cbn -[given Sc.need]; rewrite ?given_need; cbn -[given Sc.need] end);
  reflexivity.

Section Facts.
Context {ct pb fu GL KL SL Src : Type}.
Variable A : G.alg ct pb fu.
Variable sp : space GL KL SL.
Variable garbage : Z -> nat -> ct.
Variable garbage_i64 : Z -> nat -> int I64.
Variable gl_n : GL -> Z.
Variable enc : Z -> list Z -> ct.
Variable dec : Z -> ct -> list Z.
Variable next : Src -> Src.
Variable sw : word_space GL KL SL.
Variable bdd : Circuits -> list pb -> list ct.
Variable dec_word : fu -> Z.
Variable dec_prepared : list pb -> Z.
Variable shuffle : list (nat * fu) -> list (nat * fu).
Let L : library := lib A sp garbage garbage_i64 gl_n enc dec next.
Let N : engine L := eng A sp garbage garbage_i64 gl_n enc dec next sw bdd dec_word dec_prepared shuffle.
Variables (p : profile) (l : GL) (sl : SL) (kl : KL).
Notation y := (cycle_costs_at sp sw l sl kl).

(** ** the update operations *)
Lemma rd_eval_text : forall o threads rs1 rs2 imm pc ram avail,
  T.RD_UPDATE_eval_enc L N p (F.rd_of o) (Int threads) tt (l, G.a_fzero A) (sl, rs1) (sl, rs2) (sl, imm) (sl, pc) (l, ram) kl avail =
  match Y.rd_space y o threads avail with
  | Some _ => option_map (pair l) (E.rd_eval_enc A o rs1 rs2 imm pc ram)
  | None => None
  end.
Proof.
  intros o threads rs1 rs2 imm pc ram avail.
  destruct o; unfold L, N; cbn -[given Sc.need]; unfold word2; rewrite ?given_need; cbn -[given Sc.need]; needs.
Qed.

(** of a map the order does not matter *)
Lemma select_perm : select_unordered A -> shuffles shuffle -> forall m sel rsh n,
  NoDup (map fst m) -> G.blind_select A (shuffle m) sel rsh n = G.blind_select A m sel rsh n.
Proof.
  intros U P m sel rsh n ND. unfold G.blind_select. now rewrite (U m (shuffle m)).
Qed.

Hypothesis UNORD : select_unordered A.
Hypothesis SHUF : shuffles shuffle.
Lemma ram_eval_text : forall o threads r0 rs2 loaded offset avail,
  T.RAM_UPDATE_eval_enc L N p (F.ram_of o) (Int threads) tt (l, r0) (l, rs2) (l, loaded) (sl, offset) kl avail =
  match Y.ram_space y o avail with
  | Some _ => option_map (pair l) (E.ram_eval_enc A o rs2 loaded offset)
  | None => None
  end.
Proof.
  intros o threads r0 rs2 loaded offset avail.
  destruct o; unfold L, N; cbn -[given Sc.need G.blind_select];
    rewrite ?given_need; cbn -[given Sc.need G.blind_select]; try reflexivity.
  - change (@counting USize (Pos.to_nat 4) 0) with [@Int USize 0; Int 1; Int 2; Int 3].
    destruct (Sc.need avail (w_splice8 sw l l l kl)) as [[]|] eqn:Q; cbn -[given Sc.need G.blind_select].
    2: { now rewrite given_need, Q. }
    assert (GV : forall X (r : option X), given avail (w_splice8 sw l l l kl) r = r) by (intros; now rewrite given_need, Q).
    rewrite GV; cbn -[given Sc.need G.blind_select]. rewrite GV; cbn -[given Sc.need G.blind_select].
    rewrite GV; cbn -[given Sc.need G.blind_select]. rewrite GV; cbn -[given Sc.need G.blind_select].
    rewrite given_need. rewrite select_perm; auto.
    2: { repeat constructor; cbn; lia. }
    destruct (Sc.need avail (w_blind sw 2 l sl)) as [[]|]; auto.
    change (nat_of (lit 0)) with 0%nat. change (nat_of (lit 2)) with 2%nat.
    match goal with |- match option_map _ ?a with _ => _ end = option_map _ ?b => change b with a; destruct a; reflexivity end.
  - change (@counting USize (Pos.to_nat 2) 0) with [@Int USize 0; Int 1].
    destruct (Sc.need avail (w_splice16 sw l l l kl)) as [[]|] eqn:Q; cbn -[given Sc.need G.blind_select].
    2: { now rewrite given_need, Q. }
    assert (GV : forall X (r : option X), given avail (w_splice16 sw l l l kl) r = r) by (intros; now rewrite given_need, Q).
    rewrite GV; cbn -[given Sc.need G.blind_select]. rewrite GV; cbn -[given Sc.need G.blind_select].
    rewrite given_need. rewrite select_perm; auto.
    2: { repeat constructor; cbn; lia. }
    destruct (Sc.need avail (w_blind sw 2 l sl)) as [[]|]; auto.
    match goal with |- match option_map _ ?a with _ => _ end = option_map _ ?b => change b with a; destruct a; reflexivity end.
Qed.

(** ** the two circuits of the repository *)
Hypothesis CIRC : circuits_agree A bdd.
Lemma bits_ram_offset : forall a b, length a = 32%nat -> length b = 32%nat ->
  collect (counting 64 0) (T.FheUintHelper_ram_offset_get_bit L N p (@T.mk_FheUintHelper_ram_offset L [(sl, a); (sl, b)])) =
  Some (map (pair sl) (a ++ b)).
Proof.
  intros a b HA HB.
  do 32 (destruct a as [|? a]; [discriminate|]). destruct a; [|discriminate].
  do 32 (destruct b as [|? b]; [discriminate|]). destruct b; [|discriminate].
  vm_compute. reflexivity.
Qed.
Lemma bits_pc_update : forall op a b c d, length op = 32%nat -> length a = 32%nat -> length b = 32%nat -> length c = 32%nat -> length d = 32%nat ->
  collect (counting 120 0) (T.FheUintHelper_pc_update_get_bit L N p
    (@T.mk_FheUintHelper_pc_update L [(sl, op); (sl, a); (sl, b); (sl, c); (sl, d)])) =
  Some (map (pair sl) (firstn 4 op ++ a ++ b ++ c ++ firstn 20 d)).
Proof.
  intros op a b c d HO HA HB HC HD.
  do 32 (destruct op as [|? op]; [discriminate|]). destruct op; [|discriminate].
  do 32 (destruct a as [|? a]; [discriminate|]). destruct a; [|discriminate].
  do 32 (destruct b as [|? b]; [discriminate|]). destruct b; [|discriminate].
  do 32 (destruct c as [|? c]; [discriminate|]). destruct c; [|discriminate].
  do 32 (destruct d as [|? d]; [discriminate|]). destruct d; [|discriminate].
  vm_compute. reflexivity.
Qed.
Lemma circuit_text : forall (helper : option (int USize) * (int USize -> option (SL * pb))) n c bs out r0 threads avail,
  fst helper = Some (Int (Z.of_nat n)) ->
  collect (counting n 0) (snd helper) = Some (map (pair sl) bs) ->
  length (bdd c bs) = 32%nat -> G.a_pack A (bdd c bs) = out ->
  match Scratch_take_glwe_slice L avail (cast USize (bits_of U32)) l with
  | Some (out_bits, scratch_1) =>
      match Module_execute_bdd_circuit_multi_thread N tt (Int threads) out_bits helper c scratch_1 with
      | Some out_bits => FheUint_pack L (l, r0) tt out_bits kl scratch_1
      | None => None
      end
  | None => None
  end =
  match Y.circuit_space y (w_circuit sw c threads) avail with
  | Some _ => Some (l, out)
  | None => None
  end.
Proof.
  intros [h1 h2] n c bs out r0 threads avail HN HB HL HP. cbn [fst snd] in *.
  pose proof (slice_text A sp garbage garbage_i64 gl_n enc dec next l avail) as ST.
  change (@Int USize (Z.of_nat 32)) with (cast USize (bits_of U32)) in ST. fold L in ST. rewrite ST. clear ST.
  unfold Y.circuit_space. cbn [Y.y_word Y.y_pack cycle_costs_at].
  destruct (Sc.take avail (32 * s_glwe sp l)) as [a|]; auto.
  unfold N at 1. cbn [Module_execute_bdd_circuit_multi_thread eng fst snd].
  rewrite given_need. unfold val.
  destruct (Sc.need a (w_circuit sw c threads)) as [[]|]; auto.
  rewrite HN. unfold nat_of, val. rewrite Nat2Z.id.
  match goal with |- context[collect ?u ?f] => change (collect u f) with (collect u h2) end. rewrite HB.
  rewrite map_snd_pair. rewrite relay_len by (rewrite junk_len; auto).
  etransitivity. { apply pack_text. intro E. rewrite E in HL. discriminate. }
  rewrite HP. destruct (Sc.need a (s_pack sp l l kl)); reflexivity.
Qed.
Lemma ram_offset_text : forall r0 rs1 imm threads avail, length rs1 = 32%nat -> length imm = 32%nat ->
  T.ram_offset_ram_offset L N p (Int threads) tt (l, r0) (sl, rs1) (sl, imm) kl avail =
  match Y.circuit_space y (Y.y_offset y threads) avail with
  | Some _ => Some (l, E.ram_offset_enc A rs1 imm)
  | None => None
  end.
Proof.
  intros r0 rs1 imm threads avail H1 H2. destruct CIRC as [C _]. destruct (C rs1 imm H1 H2) as [CL CP].
  pose proof (circuit_text _ 64%nat codegen_ram_offset (rs1 ++ imm) _ r0 threads avail
    (eq_refl : fst (T.FheUintHelper_ram_offset_bit_size L p (@T.mk_FheUintHelper_ram_offset L [(sl, rs1); (sl, imm)]),
        T.FheUintHelper_ram_offset_get_bit L N p (@T.mk_FheUintHelper_ram_offset L [(sl, rs1); (sl, imm)])) = _)
    (bits_ram_offset rs1 imm H1 H2) CL CP) as X.
  etransitivity; [|exact X]. unfold T.ram_offset_ram_offset.
  change (FheUint_glwe_layout L (l, r0)) with l.
  destruct (Scratch_take_glwe_slice L avail (cast USize (bits_of U32)) l) as [[o s1]|]; auto.
  destruct (Module_execute_bdd_circuit_multi_thread N tt (Int threads) o _ codegen_ram_offset s1) as [o'|]; auto.
  destruct (FheUint_pack L (l, r0) tt o' kl s1); auto.
Qed.
Lemma update_pc_text : forall r0 rs1 rs2 pc imm op threads avail,
  length rs1 = 32%nat -> length rs2 = 32%nat -> length pc = 32%nat -> length imm = 32%nat -> length op = 32%nat ->
  T.pc_update_update_pc L N p (Int threads) tt (l, r0) (sl, rs1) (sl, rs2) (sl, pc) (sl, imm) (sl, op) kl avail =
  match Y.circuit_space y (Y.y_pcu y threads) avail with
  | Some _ => Some (l, E.update_pc_enc A rs1 rs2 pc imm op)
  | None => None
  end.
Proof.
  intros r0 rs1 rs2 pc imm op threads avail H1 H2 H3 H4 H5.
  destruct CIRC as [_ C]. destruct (C op rs1 rs2 pc imm) as [CL CP]; auto.
  pose proof (circuit_text _ 120%nat codegen_pc_update _ _ r0 threads avail
    (eq_refl : fst (T.FheUintHelper_pc_update_bit_size L p (@T.mk_FheUintHelper_pc_update L [(sl, op); (sl, rs1); (sl, rs2); (sl, pc); (sl, imm)]),
        T.FheUintHelper_pc_update_get_bit L N p (@T.mk_FheUintHelper_pc_update L [(sl, op); (sl, rs1); (sl, rs2); (sl, pc); (sl, imm)])) = _)
    (bits_pc_update op rs1 rs2 pc imm H5 H1 H2 H3 H4) CL CP) as X.
  etransitivity; [|exact X]. unfold T.pc_update_update_pc.
  change (FheUint_glwe_layout L (l, r0)) with l.
  destruct (Scratch_take_glwe_slice L avail (cast USize (bits_of U32)) l) as [[o s1]|]; auto.
  destruct (Module_execute_bdd_circuit_multi_thread N tt (Int threads) o _ codegen_pc_update s1) as [o'|]; auto.
  destruct (FheUint_pack L (l, r0) tt o' kl s1); auto.
Qed.
End Facts.
