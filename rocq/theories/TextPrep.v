(** * The text of fhevm/src/prepare.rs against the model of it (helper lemmas) *)
Require Import ZArith List Bool Lia Znat.
From Verif Require Import Rust RustIter RustLib RustEng TextLib TextLoop TextEng TextMemFacts.
Require Verif.Word Verif.Glwe Verif.Par Verif.ParFacts Verif.EncMem Verif.MemOps Verif.Scratch Verif.ListFacts
  Verif.CycleScratch Verif.Prepare Verif.PrepFacts.
Require Verif.TextEnc.
Module T := Verif.TextEnc.
Module P := Verif.Prepare.
Import ListNotations.
Open Scope Z_scope.

Definition zi (n : nat) : int USize := Int (Z.of_nat n).

Lemma bind_eq : forall {X Z} (e e' : option X) (k : X -> option Z), e = e' ->
  match e with Some x => k x | None => None end = match e' with Some x => k x | None => None end.
Proof. intros X Z e e' k ->. reflexivity. Qed.

(** ** numbers *)
Lemma sum_text : forall p counts s, Z.of_nat (s + list_sum counts) < b64 ->
  for_each (map zi counts) (fun x s => add p s x) (zi s) = Some (zi (s + list_sum counts)).
Proof.
  induction counts as [|c r IH]; intros s H; cbn [map for_each list_sum fold_right]; [now rewrite Nat.add_0_r|].
  change (list_sum (c :: r)) with (c + list_sum r)%nat in *. unfold zi at 1 2. rewrite uadd by lia.
  rewrite <- Nat2Z.inj_add. change (Int (Z.of_nat (s + c))) with (zi (s + c)). rewrite IH by lia.
  f_equal. f_equal. change (fold_right Nat.add 0%nat r) with (list_sum r). lia.
Qed.
Lemma scan_text : forall p counts s, Z.of_nat (s + list_sum counts) < b64 ->
  scan (map zi counts) (zi s) (fun sum x => match add p sum x with Some t14 => Some (t14, Some t14) | None => None end)
  = Some (map zi (P.sums_from s counts)).
Proof.
  induction counts as [|c r IH]; intros s H; cbn [map scan P.sums_from]; auto.
  change (list_sum (c :: r)) with (c + list_sum r)%nat in *. unfold zi at 1 2. rewrite uadd by lia.
  rewrite <- Nat2Z.inj_add. change (@Int USize (Z.of_nat (s + c))) with (zi (s + c)).
  cbv iota beta. rewrite IH by lia. reflexivity.
Qed.
Lemma index_zi : forall {X} (xs : list X) n, index xs (zi n) = nth_error xs n.
Proof. intros. unfold index, zi, val. now rewrite Nat2Z.id. Qed.

(** the [while] loop *)
Lemma while_text : forall p sums q start local,
  Z.of_nat (length sums) < b64 -> (start + local = q)%nat -> Z.of_nat q < b64 ->
  forall fuel cnt, (cnt < length sums)%nat ->
  while fuel (fun cnt => match add p cnt (lit 1) with
      | Some t21 => match index (map zi sums) t21 with
          | Some t22 => match add p (zi start) (zi local) with Some t23 => Some (le t22 t23) | None => None end
          | None => None end
      | None => None end)
    (fun cnt => match add p cnt (lit 1) with Some t24 => Some t24 | None => None end) (zi cnt) =
  option_map zi (P.find_comp fuel sums cnt q).
Proof.
  intros p sums q start local HB <- HQ. induction fuel as [|f IH]; intros cnt HC; [reflexivity|].
  cbn [while P.find_comp]. unfold lit. unfold zi at 1 5. rewrite !uadd by lia.
  change (Z.of_nat cnt + 1) with (Z.of_nat cnt + Z.of_nat 1). rewrite <- Nat2Z.inj_add, Nat.add_1_r.
  change (@Int USize (Z.of_nat (S cnt))) with (zi (S cnt)). rewrite index_zi, nth_error_map.
  destruct (nth_error sums (S cnt)) as [s|] eqn:E; [|reflexivity]. cbn [option_map].
  unfold zi at 1 2. rewrite uadd by lia. rewrite <- Nat2Z.inj_add.
  unfold zi at 1, le, val.
  replace (Z.of_nat s <=? Z.of_nat (start + local)) with (s <=? start + local)%nat
    by (destruct (Nat.leb_spec s (start + local)), (Z.leb_spec (Z.of_nat s) (Z.of_nat (start + local))); auto; lia).
  destruct (s <=? start + local)%nat; [|reflexivity].
  apply IH. apply nth_error_Some. congruence.
Qed.

(** ** storing into a list, in turn *)
Lemma for_each_store : forall {X} (P : nat -> X -> Prop) (f : nat -> X -> X) body (b a : list X),
  (forall i x, nth_error b i = Some x -> P (length a + i)%nat x) ->
  (forall a x b, P (length a) x -> body (zi (length a)) (a ++ x :: b) = Some (a ++ f (length a) x :: b)) ->
  for_each (counting (length b) (Z.of_nat (length a))) body (a ++ b) = Some (a ++ imap f (length a) b).
Proof.
  induction b as [|x b IH]; intros a HP HB; cbn [length counting for_each imap]; auto.
  change (@Int USize (Z.of_nat (length a))) with (zi (length a)).
  rewrite HB by (rewrite <- (Nat.add_0_r (length a)); apply HP; reflexivity).
  replace (Z.of_nat (length a) + 1) with (Z.of_nat (length (a ++ [f (length a) x]))) by (rewrite app_length; cbn; lia).
  replace (a ++ f (length a) x :: b) with ((a ++ [f (length a) x]) ++ b) by now rewrite <- app_assoc.
  rewrite IH.
  - rewrite app_length, <- app_assoc. cbn [length]. now rewrite Nat.add_1_r.
  - intros i z Hi. rewrite app_length. cbn [length]. rewrite Nat.add_1_r, Nat.add_succ_l, plus_n_Sm. now apply HP.
  - auto.
Qed.
Lemma replace_app : forall {X} (a : list X) x b z, replace (a ++ x :: b) (length a) z = Some (a ++ z :: b).
Proof. induction a as [|h a IH]; intros x b z; cbn; auto. now rewrite IH. Qed.
Lemma store_app : forall {X} (a : list X) x b z, store (a ++ x :: b) (zi (length a)) z = Some (a ++ z :: b).
Proof. intros. unfold store, zi, val. rewrite Nat2Z.id. apply replace_app. Qed.
Lemma set_nth_app : forall {X} (a : list X) x b z, Verif.Word.set_nth (a ++ x :: b) (length a) z = Some (a ++ z :: b).
Proof. induction a as [|h a IH]; intros x b z; cbn; auto. now rewrite IH. Qed.
Lemma nth_error_mid : forall {X} (a : list X) x b, nth_error (a ++ x :: b) (length a) = Some x.
Proof. induction a; cbn; auto. Qed.
Lemma imap_repeat : forall {X Y} (z : Y) (b : list X) k, imap (fun _ _ => z) k b = repeat z (length b).
Proof. induction b as [|x b IH]; intro k; cbn; auto. now rewrite IH. Qed.

Lemma sum_32 : forall counts, Forall (fun c => c <= 32)%nat counts -> (list_sum counts <= 32 * length counts)%nat.
Proof.
  induction counts as [|c cs IH]; intro H; [cbn; lia|]. apply Forall_cons_iff in H as [H1 H2].
  change (list_sum (c :: cs)) with (c + list_sum cs)%nat. cbn [length]. specialize (IH H2). lia.
Qed.

Lemma comb_fst : forall X Y (xs : list X) (ys : list Y), length xs = length ys -> map fst (combine xs ys) = xs.
Proof. induction xs; intros [|y ys] H; cbn in *; try discriminate; auto. f_equal; auto. Qed.
Lemma comb_snd : forall X Y (xs : list X) (ys : list Y), length xs = length ys -> map snd (combine xs ys) = ys.
Proof. induction xs; intros [|y ys] H; cbn in *; try discriminate; auto. f_equal; auto. Qed.

Section Facts.
Context {ct pb fu GL KL SL Src : Type}.
Variable A : G.alg ct pb fu.
Variable sp : space GL KL SL.
Variable garbage : Z -> nat -> ct.
Variable garbage_i64 : Z -> nat -> int I64.
Variable gl_n : GL -> Z.
Variable enc : Z -> list Z -> ct.
Variable dec : Z -> ct -> list Z.
Variable next : Src -> Src.
Variable sw : word_space GL KL SL.
Variable bdd : Circuits -> list pb -> list ct.
Variable dec_word : fu -> Z.
Variable dec_prepared : list pb -> Z.
Variable shuffle : list (nat * fu) -> list (nat * fu).
Let L : library := lib A sp garbage garbage_i64 gl_n enc dec next.
Let N : engine L := eng A sp garbage garbage_i64 gl_n enc dec next sw bdd dec_word dec_prepared shuffle.
Variables (p : profile) (l : GL) (sl : SL) (kl : KL).
Notation y := (cycle_costs_at sp sw l sl kl).

(** the low bits of the destinations *)
Lemma get_bits_text : forall (r : list pb) c, (c <= length r)%nat ->
  FheUintPrepared_get_bits N (sl, r) (lit 0) (zi c) = Some (map (pair sl) (firstn c r)).
Proof.
  intros r c H. unfold N. cbn [FheUintPrepared_get_bits eng fst snd]. unfold nat_of, lit, zi, val. rewrite Nat2Z.id.
  change (Z.to_nat 0) with 0%nat. cbn [Nat.add]. rewrite (proj2 (Nat.leb_le _ _)) by auto. now rewrite skipn_O.
Qed.
Lemma put_bits_text : forall (r xs : list pb) c, (c <= length r)%nat -> length xs = c ->
  FheUintPrepared_put_bits N (sl, r) (lit 0) (zi c) (map (pair sl) xs) = Some (sl, xs ++ skipn c r).
Proof.
  intros r xs c H HX. unfold N. cbn [FheUintPrepared_put_bits eng fst snd]. unfold nat_of, lit, zi, val. rewrite Nat2Z.id.
  change (Z.to_nat 0) with 0%nat. cbn [Nat.add]. rewrite (proj2 (Nat.leb_le _ _)) by auto.
  rewrite map_length, HX, Nat.eqb_refl, map_snd_pair. reflexivity.
Qed.

Definition heads (rcs : list (list pb * nat)) : list (list pb) := map (fun rc => firstn (snd rc) (fst rc)) rcs.
Definition wide (rcs : list (list pb * nat)) : Prop := Forall (fun rc => length (fst rc) = 32%nat /\ (snd rc <= 32)%nat) rcs.
Lemma heads_length : forall rcs, wide rcs -> length (concat (heads rcs)) = list_sum (map snd rcs).
Proof.
  induction rcs as [|[r c] rcs IH]; intro H; auto. apply Forall_cons_iff in H as [[H1 H2] H]. cbn [fst snd] in *.
  unfold heads. cbn [map concat fst snd]. rewrite app_length, firstn_length_le by lia.
  fold (heads rcs). rewrite IH by auto. reflexivity.
Qed.
Lemma collect_heads : forall rcs, wide rcs ->
  collect (combine (map (pair sl) (map fst rcs)) (map zi (map snd rcs)))
    (fun '(r, count) => FheUintPrepared_get_bits N r (lit 0) count) = Some (map (map (pair sl)) (heads rcs)).
Proof.
  induction rcs as [|[r c] rcs IH]; intro H; auto. apply Forall_cons_iff in H as [[H1 H2] H]. cbn [fst snd] in *.
  cbn [map combine collect fst snd]. rewrite get_bits_text by lia. now rewrite IH.
Qed.
Lemma collect_put : forall rcs cells, wide rcs -> length cells = list_sum (map snd rcs) ->
  collect (combine (combine (map (pair sl) (map fst rcs)) (map zi (map snd rcs)))
      (regroup (map (map (pair sl)) (heads rcs)) (map (pair sl) cells)))
    (fun '((r, count), part) => FheUintPrepared_put_bits N r (lit 0) count part) =
  Some (map (pair sl) (map (fun rx => snd rx ++ skipn (snd (fst rx)) (fst (fst rx)))
      (combine rcs (regroup (heads rcs) cells)))).
Proof.
  induction rcs as [|[r c] rcs IH]; intros cells H HL; auto. apply Forall_cons_iff in H as [[H1 H2] H]. cbn [fst snd] in *.
  unfold heads. cbn [map combine collect regroup fst snd]. fold (heads rcs).
  cbn [map list_sum fold_right snd] in HL. change (fold_right Nat.add 0%nat (map snd rcs)) with (list_sum (map snd rcs)) in HL.
  rewrite map_length, firstn_length_le by lia.
  rewrite firstn_map, skipn_map. rewrite put_bits_text by (rewrite ?firstn_length; lia).
  rewrite IH by (auto; rewrite skipn_length; lia). reflexivity.
Qed.

(** the bits above the count *)
Lemma zero_text : forall (a : list (SL * list pb)) (r : list pb) b c, length r = 32%nat -> (c <= 32)%nat ->
  for_range (zi c) (cast USize (bits_of U32)) (fun i res =>
      match index res (zi (length a)) with
      | Some t36 => match FheUintPrepared_get_bit N t36 i with
        | Some t37 => match GGSWPrepared_zero N t37 tt with
          | Some t38 => match index res (zi (length a)) with
            | Some t39 => match FheUintPrepared_put_bit N t39 i t38 with
              | Some t40 => match store res (zi (length a)) t40 with Some t41 => Some t41 | None => None end
              | None => None end
            | None => None end
          | None => None end
        | None => None end
      | None => None end) (a ++ (sl, r) :: b) =
  Some (a ++ (sl, firstn c r ++ repeat (G.a_pzero A) (32 - c)) :: b).
Proof.
  intros a r b c HR HC. unfold for_range. change (val (cast USize (bits_of U32))) with 32.
  change (val (zi c)) with (Z.of_nat c).
  replace (Z.to_nat (32 - Z.of_nat c)) with (length (skipn c r)) by (rewrite skipn_length; lia).
  replace (32 - c)%nat with (length (skipn c r)) by (rewrite skipn_length; lia).
  assert (HF : length (firstn c r) = c) by (rewrite firstn_length; lia).
  replace (Z.of_nat c) with (Z.of_nat (length (firstn c r))) by (now rewrite HF).
  replace (a ++ (sl, r) :: b) with (a ++ (sl, firstn c r ++ skipn c r) :: b) by (now rewrite firstn_skipn).
  generalize (skipn c r) as v. generalize (firstn c r) as u. clear HF HR HC. intros u v.
  revert u. induction v as [|x v IH]; intro u; cbn [length counting for_each repeat].
  - reflexivity.
  - change (@Int USize (Z.of_nat (length u))) with (zi (length u)).
    rewrite index_zi, nth_error_mid.
    unfold N at 1. cbn [FheUintPrepared_get_bit eng fst snd].
    change (nat_of (zi (length u))) with (Z.to_nat (Z.of_nat (length u))). rewrite Nat2Z.id, nth_error_mid. cbn [option_map].
    unfold N at 1. cbn [GGSWPrepared_zero eng fst snd].
    unfold N at 1. cbn [FheUintPrepared_put_bit eng fst snd].
    change (nat_of (zi (length u))) with (Z.to_nat (Z.of_nat (length u))). rewrite Nat2Z.id, set_nth_app. cbn [option_map].
    rewrite store_app.
    replace (Z.of_nat (length u) + 1) with (Z.of_nat (length (u ++ [G.a_pzero A]))) by (rewrite app_length; cbn; lia).
    replace (u ++ G.a_pzero A :: v) with ((u ++ [G.a_pzero A]) ++ v) by now rewrite <- app_assoc.
    etransitivity; [exact (IH (u ++ [G.a_pzero A]))|]. now rewrite <- app_assoc.
Qed.
Lemma zero_all_text : forall (rs : list (list pb)) counts, length rs = length counts ->
  Forall (fun r => length r = 32%nat) rs -> Forall (fun c => c <= 32)%nat counts ->
  for_range (lit 0) (len (map (pair sl) rs)) (fun res_index res =>
    match index (map zi counts) res_index with
    | Some t35 =>
      match for_range t35 (cast USize (bits_of U32)) (fun i res =>
          match index res res_index with
          | Some t36 => match FheUintPrepared_get_bit N t36 i with
            | Some t37 => match GGSWPrepared_zero N t37 tt with
              | Some t38 => match index res res_index with
                | Some t39 => match FheUintPrepared_put_bit N t39 i t38 with
                  | Some t40 => match store res res_index t40 with Some t41 => Some t41 | None => None end
                  | None => None end
                | None => None end
              | None => None end
            | None => None end
          | None => None end) res with
      | Some res => Some res
      | None => None end
    | None => None end) (map (pair sl) rs) =
  Some (map (fun rc => (sl, firstn (snd rc) (fst rc) ++ repeat (G.a_pzero A) (32 - snd rc))) (combine rs counts)).
Proof.
  intros rs counts HL HR HC. unfold for_range at 1. unfold len. change (val (lit 0)) with 0. unfold val.
  rewrite map_length, Z.sub_0_r, Nat2Z.id.
  pose proof (for_each_store (fun i x => exists r c, x = (sl, r) /\ length r = 32%nat /\ nth_error counts i = Some c /\ (c <= 32)%nat)
    (fun i x => (sl, firstn (nth i counts 0%nat) (snd x) ++ repeat (G.a_pzero A) (32 - nth i counts 0%nat)))) as S.
  pose proof (fun body => S body (map (pair sl) rs) []) as S'. clear S. rename S' into S.
  cbn [length app Nat.add] in S. rewrite map_length in S.
  etransitivity. { apply S.
    - intros i x Hi. rewrite nth_error_map in Hi. destruct (nth_error rs i) as [r|] eqn:E; [|discriminate]. injection Hi as <-.
      destruct (nth_error counts i) as [c|] eqn:EC.
      2: { apply nth_error_None in EC. assert (i < length rs)%nat by (apply nth_error_Some; congruence). lia. }
      exists r, c. rewrite Forall_forall in HR, HC. repeat split; auto.
      + apply HR. eapply nth_error_In; eauto.
      + apply HC. eapply nth_error_In; eauto.
    - intros a x b (r & c & -> & R32 & EC & C32). cbn [snd].
      rewrite index_zi, nth_error_map, EC. cbn [option_map].
      rewrite (nth_error_nth _ _ _ EC).
      etransitivity. { eapply bind_eq. apply zero_text; auto. } reflexivity. }
  f_equal. clear S HR HC.
  rewrite imap_map. cbn [snd].
  enough (X : forall k cs, length rs = length cs -> (forall i, nth (k + i) counts 0%nat = nth i cs 0%nat) ->
    imap (fun i x => (sl, firstn (nth i counts 0%nat) x ++ repeat (G.a_pzero A) (32 - nth i counts 0%nat))) k rs =
    map (fun rc => (sl, firstn (snd rc) (fst rc) ++ repeat (G.a_pzero A) (32 - snd rc))) (combine rs cs)) by (apply X; auto).
  clear HL. induction rs as [|r rs IH]; intros k [|c cs] HL HI; try discriminate; auto.
  cbn [imap map combine fst snd]. pose proof (HI 0%nat) as H0. rewrite Nat.add_0_r in H0. cbn [nth] in H0. rewrite H0.
  f_equal. apply IH; [cbn in HL; lia|]. intro i. specialize (HI (Datatypes.S i)). rewrite <- plus_n_Sm in HI. exact HI.
Qed.

(** ** one bit *)
Section Task.
Variables (words : list fu) (counts : list nat) (fuel : nat).
Hypothesis LW : length words = length counts.
Hypothesis FUEL : (length counts < fuel)%nat.
Hypothesis SMALL : 32 * Z.of_nat (length counts) + 1 < b64.
Hypothesis C32 : Forall (fun c => c <= 32)%nat counts.
Notation sums := (P.running_sums counts).

Lemma total_small : Z.of_nat (list_sum counts) + 1 < b64.
Proof.
  clear LW FUEL. pose proof (sum_32 counts C32). lia.
Qed.
Lemma sums_len : length sums = Datatypes.S (length counts).
Proof. unfold P.running_sums. cbn [length]. now rewrite PrepFacts.sums_length. Qed.

Definition guards (b : Z) : option unit :=
  match Sc.need b (w_bit_lwe sw l kl) with
  | Some _ => match Sc.need b (w_cbt sw kl) with Some _ => Sc.need b (w_fill sw sl) | None => None end
  | None => None
  end.
Lemma task_text : forall start local (x : pb) b st q, (start + local = q)%nat -> (q < list_sum counts)%nat ->
  exists st',
  (fun '(local_bit, dst) '(tmp_ggsw, tmp_lwe) =>
     match while fuel (fun cnt => match add p cnt (lit 1) with
            | Some t21 => match index (map zi sums) t21 with
                | Some t22 => match add p (zi start) local_bit with Some t23 => Some (le t22 t23) | None => None end
                | None => None end
            | None => None end)
          (fun cnt => match add p cnt (lit 1) with Some t24 => Some t24 | None => None end) (lit 0) with
     | Some cnt =>
       match index (map (pair l) words) cnt with
       | Some t25 =>
         match add p (zi start) local_bit with
         | Some t26 =>
           match index (map zi sums) cnt with
           | Some t27 =>
             match sub p t26 t27 with
             | Some t28 =>
               match FheUint_get_bit_lwe N t25 tt t28 tmp_lwe kl kl b with
               | Some t29 =>
                 match CbtKey_execute_to_constant N kl tt tmp_ggsw t29 (lit 1) (lit 1) b with
                 | Some t30 =>
                   match GGSWPrepared_prepare N dst tt t30 b with
                   | Some t31 => Some ((local_bit, t31), (t30, t29))
                   | None => None end
                 | None => None end
               | None => None end
             | None => None end
           | None => None end
         | None => None end
       | None => None end
     | None => None
     end) (zi local, (sl, x)) st =
  match guards b with
  | Some _ => match P.prep_task A words sums q with Some z => Some ((zi local, (sl, z)), st') | None => None end
  | None => None
  end.
Proof.
  intros start local x b [tg tl] q HQ HT.
  destruct (PrepFacts.locate counts q HT) as (i & Hi & Hr).
  pose proof total_small as TS. pose proof sums_len as SL'.
  exists (P.prep_task A words sums q, P.prep_task A words sums q).
  change (@lit USize 0) with (zi 0).
  rewrite (while_text p sums q start local) by lia.
  assert (FC : forall f, (length counts < f)%nat -> P.find_comp f sums 0 q = Some i)
    by (intros f Hf; apply PrepFacts.find_comp_ok; auto; lia).
  rewrite FC by auto. cbn [option_map].
  rewrite !index_zi, !nth_error_map.
  assert (HW : exists w, nth_error words i = Some w).
  { destruct (nth_error words i) eqn:E; eauto. apply nth_error_None in E. lia. }
  destruct HW as [w HW]. rewrite HW. cbn [option_map].
  unfold zi at 1 2. rewrite uadd by lia.
  rewrite (PrepFacts.running_nth counts i) by lia. cbn [option_map].
  unfold zi at 1. rewrite usub by lia.
  unfold N. cbn [FheUint_get_bit_lwe CbtKey_execute_to_constant GGSWPrepared_prepare eng fst snd].
  rewrite given_need. unfold guards.
  unfold P.prep_task. rewrite FC by (unfold P.running_sums; cbn [length]; rewrite PrepFacts.sums_length; lia).
  cbv iota beta. rewrite HW, (PrepFacts.running_nth counts i) by lia. cbv iota beta.
  replace (nat_of (@Int USize (Z.of_nat start + Z.of_nat local - Z.of_nat (list_sum (firstn i counts)))))
    with (q - list_sum (firstn i counts))%nat by (unfold nat_of, val; lia).
  destruct (Sc.need b (w_bit_lwe sw l kl)) as [[]|]; auto.
  rewrite given_need. destruct (Sc.need b (w_cbt sw kl)) as [[]|]; auto.
  change (val (lit 1) =? 1) with true. cbn [andb option_map].
  rewrite given_need. destruct (Sc.need b (w_fill sw sl)) as [[]|]; reflexivity.
Qed.
End Task.

Definition all_guards : option unit :=
  match Sc.take (Y.y_bits y) (w_ggsw sw sl) with
  | Some a => match Sc.take a (w_lwe sw l) with Some b => guards b | None => None end
  | None => None
  end.

Lemma prepare_multiple_text : forall fuel threads order (res : list (list pb)) (words : list fu) counts avail,
  length res = length counts -> length words = length counts ->
  Forall (fun r => length r = 32%nat) res -> Forall (fun c => c <= 32)%nat counts ->
  (0 < list_sum counts)%nat -> (length counts < fuel)%nat -> 32 * Z.of_nat (length counts) + 1 < b64 ->
  0 <= Z.of_nat threads * Y.y_bits y < b64 ->
  (threads <> 0%nat -> Verif.EncMem.par_order threads (list_sum counts) order) ->
  T.Module_prepare_multiple_fheuint L N p fuel tt (zi threads) (map (pair sl) res) (map (pair l) words) (map zi counts) kl avail =
  match Y.prepare_multiple_space y (Z.of_nat threads) avail with
  | Some _ => option_map (map (pair sl)) (P.prepare_multiple A threads order res words counts)
  | None => None
  end.
Proof.
  intros fuel threads order res words counts avail HR HW R32 C32 HT FUEL SMALL SZ ORD.
  assert (NR : res <> []) by (intros ->; destruct counts; [cbn in HT; lia|discriminate]).
  assert (NW : words <> []) by (intros ->; destruct counts; [cbn in HT; lia|discriminate]).
  assert (TS := total_small counts SMALL C32).
  set (rcs := combine res counts).
  assert (WD : wide rcs).
  { unfold wide, rcs. apply Forall_forall. intros [r c] Hi. cbn [fst snd]. rewrite Forall_forall in R32, C32.
    split; [apply R32; eapply in_combine_l; eauto|apply C32; eapply in_combine_r; eauto]. }
  assert (RF : map fst rcs = res) by (apply comb_fst; auto).
  assert (RS : map snd rcs = counts) by (apply comb_snd; auto).
  assert (DR : rcs = combine res counts) by reflexivity. clearbody rcs.
  unfold T.Module_prepare_multiple_fheuint.
  change (Keys_get_cbt_key N kl) with (kl, kl, kl). cbv iota beta.
  destruct res as [|r0 rest] eqn:ER; [congruence|]. destruct words as [|w0 wrest] eqn:EW; [congruence|].
  rewrite <- ER, <- EW in *.
  etransitivity. { eapply (bind_eq _ (Some (sl, r0))). rewrite ER. reflexivity. }
  etransitivity. { eapply (bind_eq _ (Some (l, w0))). rewrite EW. reflexivity. }
  cbv iota beta. cbv zeta.
  change (FheUintPrepared_ggsw_layout L (sl, r0)) with sl. change (FheUint_glwe_layout L (l, w0)) with l.
  change (Module_fhe_uint_prepare_tmp_bytes N tt (CbtKey_block_size N kl) (lit 1) sl l kl)
    with (@Int USize (Y.y_bits y)).
  change (zi threads) with (@Int USize (Z.of_nat threads)). rewrite umul by exact SZ. cbv iota beta.
  change (Scratch_available L avail) with (@Int USize avail).
  unfold Y.prepare_multiple_space. set (size := Y.y_bits y) in *.
  assert (GN : ge (@Int USize avail) (Int (Z.of_nat threads * size)) = match Sc.need avail (Z.of_nat threads * size) with Some _ => true | None => false end).
  { unfold ge, val, Sc.need. rewrite Z.geb_leb. destruct (_ <=? _); reflexivity. }
  rewrite GN. destruct (Sc.need avail (Z.of_nat threads * size)) as [[]|] eqn:Q1; [|reflexivity].
  etransitivity. { eapply (bind_eq _ (Some (map (map (pair sl)) (heads rcs)))).
    rewrite <- (collect_heads rcs WD), RF, RS. reflexivity. }
  cbv iota beta.
  rewrite <- concat_map. set (comb := concat (heads rcs)).
  assert (LC : length comb = list_sum counts) by (unfold comb; rewrite heads_length, RS; auto).
  unfold sum. change (@Int USize 0) with (zi 0). rewrite (sum_text p counts 0) by lia. cbn [Nat.add].
  destruct threads as [|t'].
  { (* no threads *) reflexivity. }
  set (threads := Datatypes.S t') in *.
  assert (HTH : (0 < threads)%nat) by (unfold threads; lia).
  change (zi (list_sum counts)) with (@Int USize (Z.of_nat (list_sum counts))).
  rewrite div_ceil_text by exact HTH. cbv iota beta.
  unfold Sc.chunked. rewrite (proj2 (Z.eqb_neq _ _)) by lia.
  etransitivity. { eapply bind_eq. apply (split_text A sp garbage garbage_i64 gl_n enc dec next threads avail size). }
  rewrite Q1. cbv iota beta.
  set (cs := Par.chunk_size threads (list_sum counts)).
  assert (CP : (0 < cs)%nat) by (apply ParFacts.chunk_size_pos; auto).
  assert (CV : (list_sum counts <= cs * threads)%nat) by (apply ParFacts.chunk_size_covers; auto).
  assert (DC : comb = concat (heads rcs)) by reflexivity. clearbody comb.
  destruct comb as [|x0 xs] eqn:EC; [cbn in LC; lia|]. rewrite <- EC in *.
  etransitivity. { eapply (bind_eq _ (Some (sl, x0))). rewrite EC. reflexivity. }
  cbv iota beta. change (GGSWPrepared_ggsw_layout N (sl, x0)) with sl.
  change (@lit USize 0) with (zi 0) at 1.
  rewrite (scan_text p counts 0) by lia. cbv iota beta.
  change ([lit 0] ++ map zi (P.sums_from 0 counts)) with (map zi (P.running_sums counts)).
  unfold chunks, val. rewrite (proj2 (Z.eqb_neq _ _)) by lia.
  rewrite !map_length, Nat2Z.id, pieces_map.
  rewrite combine_repeat by (rewrite map_length; apply pieces_count; rewrite LC; exact CV).
  rewrite enumerate_imap, map_map, imap_map.
  (* the loop over the threads *)
  set (g := fun (q : nat) (_ : pb) => match all_guards with Some _ => P.prep_task A words (P.running_sums counts) q | None => None end).
  match goal with |- context[for_mut _ ?b tt] => set (body := b) end.
  assert (FM : for_mut (imap (fun i ch => (@Int USize (Z.of_nat i), (size, map (pair sl) ch))) 0 (pieces (length comb) cs comb)) body tt =
    match ParFacts.mapi_o g 0 comb with
    | Some ys => Some (imap (fun i ch => (@Int USize (Z.of_nat i), (size, map (pair sl) ch))) 0 (pieces (length comb) cs ys), tt)
    | None => None end).
  { rewrite (for_mut_pieces _ _ (fun i ch => (@Int USize (Z.of_nat i), (size, map (pair sl) ch))) body g cs CP (length comb) comb 0).
    - now rewrite Nat.mul_0_r.
    - auto.
    - intros j ch Hj. cbn [Nat.add].
      assert (NE : ch <> []) by (eapply pieces_ne; eauto).
      assert (IN : forall i x, nth_error ch i = Some x -> (cs * j + i < list_sum counts)%nat).
      { intros i x Hi. destruct (pieces_nth _ cs CP _ _ _ _ _ _ Hj Hi) as [_ E]. rewrite <- LC. apply nth_error_Some. congruence. }
      assert (J0 : (cs * j < list_sum counts)%nat).
      { destruct ch as [|c0 ch]; [congruence|]. specialize (IN 0%nat c0 eq_refl). lia. }
      unfold body. unfold zi at 1. rewrite umul by nia.
      replace (Z.of_nat j * Z.of_nat cs) with (Z.of_nat (cs * j)) by lia.
      change (@Int USize (Z.of_nat (cs * j))) with (zi (cs * j)). cbv iota beta.
      unfold g. rewrite mapi_o_guard by exact NE. unfold all_guards.
      assert (TG : Scratch_take_ggsw N size sl = match Sc.take size (w_ggsw sw sl) with Some a => Some (None, a) | None => None end).
      { unfold N. cbn [Scratch_take_ggsw eng]. exact (given_take _ _ (fun a => Some (None, a))). }
      rewrite TG. change (Y.y_bits y) with size. destruct (Sc.take size (w_ggsw sw sl)) as [a|]; [|reflexivity].
      etransitivity. { eapply (bind_eq _ (Some (l, w0))). rewrite EW. reflexivity. }
      cbv iota beta. change (FheUint_glwe_layout L (l, w0)) with l.
      assert (TL : Scratch_take_lwe N a l = match Sc.take a (w_lwe sw l) with Some a => Some (None, a) | None => None end).
      { unfold N. cbn [Scratch_take_lwe eng]. exact (given_take _ _ (fun a => Some (None, a))). }
      rewrite TL. destruct (Sc.take a (w_lwe sw l)) as [b|]; [|reflexivity]. cbv iota beta.
      rewrite enumerate_imap, imap_map.
      match goal with |- context[for_mut _ ?bb (None, None)] => set (inner := bb) end.
      pose proof (for_mut_imap _ _ _ (fun i x => (@Int USize (Z.of_nat i), (sl, x))) inner
        (fun q (_ : pb) => match guards b with Some _ => P.prep_task A words (P.running_sums counts) q | None => None end)
        (fun _ => True) (cs * j) ch 0 (None, None) Logic.I) as F.
      assert (H1 : forall j0 x s, nth_error ch j0 = Some x -> True ->
        match match guards b with Some _ => P.prep_task A words (P.running_sums counts) (cs * j + (0 + j0)) | None => None end with
        | Some z => exists s', True /\ inner (@Int USize (Z.of_nat (0 + j0)), (sl, x)) s = Some ((@Int USize (Z.of_nat (0 + j0)), (sl, z)), s')
        | None => inner (@Int USize (Z.of_nat (0 + j0)), (sl, x)) s = None
        end).
      { intros i x st Hi _. cbn [Nat.add].
        destruct (task_text words counts fuel HW FUEL SMALL C32 (cs * j) i x b st (cs * j + i) eq_refl (IN i x Hi)) as [st' E].
        unfold inner. unfold zi in E. 
        destruct (guards b); [destruct (P.prep_task A words (P.running_sums counts) (cs * j + i))|]; [exists st'; split; auto|..]; exact E. }
      specialize (F H1). clear H1. rewrite Nat.add_0_r, mapi_o_guard in F by exact NE.
      destruct (guards b); [|etransitivity; [eapply bind_eq; exact F|reflexivity]].
      destruct (ParFacts.mapi_o (fun q _ => P.prep_task A words (P.running_sums counts) q) (cs * j) ch) as [ys|] eqn:EY; [|etransitivity; [eapply bind_eq; exact F|reflexivity]].
      destruct F as ([? ?] & _ & F). 
      etransitivity. { eapply bind_eq. exact F. }
      cbv iota beta.
      match goal with |- context[write_back _ ?m] => assert (E2 : m = map (pair sl) ys) by
        (rewrite map_imap; exact (imap_const _ _ (pair sl) ys 0)); rewrite E2 end.
      rewrite write_back_all by (rewrite !map_length; eapply mapi_o_len; eauto). reflexivity. }
  etransitivity. { eapply bind_eq. eapply bind_eq. exact FM. }
  clear FM body.
  assert (NC : comb <> []) by (rewrite EC; discriminate).
  unfold g. rewrite mapi_o_guard by exact NC.
  change (match Sc.take size (Y.y_ggsw y) with
     | Some a => match Sc.take a (Y.y_lwe y) with
       | Some b => match Sc.need b (Y.y_bit_lwe y) with
         | Some _ => match Sc.need b (Y.y_cbt y) with Some _ => Sc.need b (Y.y_fill y) | None => None end
         | None => None end
       | None => None end
     | None => None end) with all_guards.
  destruct all_guards as [[]|]; [|reflexivity].
  assert (MR : P.prepare_multiple A threads order res words counts =
    option_map (P.scatter_bits A counts) (ParFacts.mapi_o (fun q _ => P.prep_task A words (P.running_sums counts) q) 0 comb)).
  { unfold P.prepare_multiple. rewrite HR, Nat.eqb_refl.
    replace (forallb (fun c => c <=? 32)%nat counts) with true
      by (symmetry; apply forallb_forall; rewrite Forall_forall in C32; intros c Hc; apply Nat.leb_le; auto).
    replace (concat (map (fun rc => firstn (snd rc) (fst rc)) (combine res counts))) with comb by (rewrite DC, DR; reflexivity).
    cbv zeta. rewrite LC. rewrite (proj2 (Nat.ltb_lt _ _)) by exact HT.
    pose proof (MemOps.region_eq _ threads order (fun q (_ : pb) => P.prep_task A words (P.running_sums counts) q) comb) as R.
    rewrite LC in R. specialize (R (ORD ltac:(lia))). unfold EncMem.region in R. rewrite LC in R.
    unfold Par.thread_tasks in R. fold cs in R |- *.
    assert (TK : Par.tasks_of threads cs (list_sum counts) <> None).
    { unfold Par.tasks_of. rewrite (proj2 (Nat.ltb_lt _ _) HTH), (proj2 (Nat.ltb_lt _ _) CP). discriminate. }
    destruct (Par.tasks_of threads cs (list_sum counts)); [|congruence]. rewrite R.
    destruct (ParFacts.mapi_o _ 0 comb); reflexivity. }
  rewrite MR.
  destruct (ParFacts.mapi_o (fun q _ => P.prep_task A words (P.running_sums counts) q) 0 comb) as [cells|] eqn:EM; [|reflexivity].
  cbn [option_map]. cbv iota beta.
  assert (LE : length cells = length comb) by (eapply mapi_o_len; eauto).
  assert (LCC : length cells = list_sum (map snd rcs)) by (rewrite LE, LC, RS; auto).
  match goal with |- context[write_back (map (pair sl) comb) ?m] => assert (E2 : m = map (pair sl) cells) end.
  { rewrite map_imap. etransitivity; [apply f_equal; exact (imap_const _ _ (map (pair sl)) _ 0)|].
    rewrite <- concat_map, concat_pieces by lia. reflexivity. }
  rewrite E2. rewrite write_back_all by (rewrite !map_length; auto).
  etransitivity. { eapply bind_eq. eapply (bind_eq _ (Some (map (pair sl) (map (fun rx => snd rx ++ skipn (snd (fst rx)) (fst (fst rx)))
      (combine rcs (regroup (heads rcs) cells)))))).
    rewrite <- (collect_put rcs cells WD LCC), RF, RS. reflexivity. }
  cbv iota beta.
  assert (RL : forall (rcs : list (list pb * nat)) (cells : list pb), length (regroup (heads rcs) cells) = length rcs).
  { clear. intros rcs. unfold heads. induction rcs as [|x rcs IH]; intro cells; cbn; auto. }
  rewrite write_back_all.
  2: { rewrite !map_length, combine_length, RL, Nat.min_id. rewrite DR, combine_length. lia. }
  set (rs := map (fun rx => snd rx ++ skipn (snd (fst rx)) (fst (fst rx))) (combine rcs (regroup (heads rcs) cells))).
  assert (SC : Forall (fun r => length r = 32%nat) rs /\ length rs = length counts /\
     map (fun rc => firstn (snd rc) (fst rc) ++ repeat (G.a_pzero A) (32 - snd rc)) (combine rs counts) = P.scatter_bits A counts cells).
  { unfold rs. rewrite <- RS. revert LCC WD. clear. revert cells. induction rcs as [|[r c] q IH]; intros cells HL W.
    - cbn. auto.
    - apply Forall_cons_iff in W as [[W1 W2] W]. cbn [fst snd] in *.
      cbn [map list_sum fold_right snd] in HL. change (fold_right Nat.add 0%nat (map snd q)) with (list_sum (map snd q)) in HL.
      unfold heads. cbn [map regroup combine fst snd P.scatter_bits]. fold (heads q).
      rewrite firstn_length_le by lia.
      destruct (IH (skipn c cells)) as (F & E1 & E2); [rewrite skipn_length; lia|auto|].
      assert (LF : length (firstn c cells) = c) by (rewrite firstn_length; lia).
      repeat split.
      + constructor; auto. rewrite app_length, LF, skipn_length. lia.
      + cbn [length]. now rewrite E1.
      + rewrite E2. f_equal. f_equal. rewrite <- LF at 1. rewrite firstn_app, Nat.sub_diag, firstn_all, firstn_O, app_nil_r.
        reflexivity. }
  destruct SC as (S1 & S2 & S3).
  etransitivity. { eapply bind_eq. exact (zero_all_text rs counts S2 S1 C32). }
  cbv iota beta. f_equal. rewrite <- S3, map_map. reflexivity.
Qed.
End Facts.
