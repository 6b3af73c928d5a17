(** * Loops of the translated text (helper lemmas)

    A loop over the chunks of a list, cut among threads, gives what one walk
    over the whole list gives. *)
Require Import ZArith List Bool Lia.
From Verif Require Import Rust RustIter.
Require Import Verif.Par Verif.ParFacts.
Import ListNotations.

Lemma pieces_chunks : forall A fuel c (l : list A), pieces fuel c l = chunks_of fuel c l.
Proof. induction fuel as [|f IH]; intros c [|x l]; cbn; auto; now rewrite IH. Qed.

(** [map] with the index *)
Fixpoint imap {A B} (f : nat -> A -> B) (k : nat) (l : list A) : list B :=
  match l with [] => [] | x :: r => f k x :: imap f (S k) r end.

Lemma imap_const : forall A B (f : A -> B) l k, imap (fun _ => f) k l = map f l.
Proof. induction l as [|x l IH]; intro k; cbn; auto. now rewrite IH. Qed.
Lemma imap_map : forall A B C (f : nat -> B -> C) (h : A -> B) l k, imap f k (map h l) = imap (fun i x => f i (h x)) k l.
Proof. induction l as [|x l IH]; intro k; cbn; auto. now rewrite IH. Qed.
Lemma map_imap : forall A B C (f : nat -> A -> B) (h : B -> C) l k, map h (imap f k l) = imap (fun i x => h (f i x)) k l.
Proof. induction l as [|x l IH]; intro k; cbn; auto. now rewrite IH. Qed.
Lemma imap_ext : forall A B (f g : nat -> A -> B) l k, (forall i x, f i x = g i x) -> imap f k l = imap g k l.
Proof. intros A B f g l. induction l as [|x l IH]; intros k H; cbn; auto. now rewrite H, IH. Qed.

Lemma enumerate_imap : forall A (l : list A),
  enumerate l = imap (fun i x => (Int (Z.of_nat i), x)) 0 l.
Proof.
  intros A l. unfold enumerate.
  enough (H : forall k, combine (counting (length l) (Z.of_nat k)) l = imap (fun i x => (@Int USize (Z.of_nat i), x)) k l) by apply (H 0%nat).
  induction l as [|x l IH]; intro k; cbn [length counting combine imap]; auto.
  replace (Z.of_nat k + 1)%Z with (Z.of_nat (S k)) by lia. now rewrite IH.
Qed.
Lemma combine_repeat : forall A B (s : A) n (l : list B), (length l <= n)%nat ->
  combine (repeat s n) l = map (pair s) l.
Proof.
  induction n as [|n IH]; intros [|x l] H; cbn in *; auto; try lia. rewrite IH by lia. reflexivity.
Qed.
Lemma combine_map2 : forall A B C D E (f : A -> B) (g : C -> D) (u : E -> A) (v : E -> C) l,
  combine (map f (map u l)) (map g (map v l)) = map (fun x => (f (u x), g (v x))) l.
Proof. induction l as [|x l IH]; cbn; auto. now rewrite IH. Qed.
Lemma combine_imap2 : forall A B C (f : nat -> A -> B) (g : nat -> A -> C) l k,
  combine (imap f k l) (imap g k l) = imap (fun i x => (f i x, g i x)) k l.
Proof. induction l as [|x l IH]; intro k; cbn; auto. now rewrite IH. Qed.

Lemma pieces_map : forall A B (f : A -> B) fuel c l, pieces fuel c (map f l) = map (map f) (pieces fuel c l).
Proof.
  induction fuel as [|n IH]; intros c [|x l]; cbn [pieces map]; auto.
  rewrite <- IH. rewrite <- skipn_map, <- firstn_map. reflexivity.
Qed.
Lemma concat_pieces : forall A c, (0 < c)%nat -> forall fuel (l : list A), (length l <= fuel)%nat -> concat (pieces fuel c l) = l.
Proof.
  intros A c Hc. induction fuel as [|n IH]; intros [|x l] H; cbn [pieces concat length] in *; auto; try lia.
  rewrite IH; [apply firstn_skipn|]. rewrite skipn_length. cbn [length]. lia.
Qed.
Lemma pieces_ne : forall A c, (0 < c)%nat -> forall fuel (l : list A) j ch,
  nth_error (pieces fuel c l) j = Some ch -> ch <> [].
Proof.
  intros A c Hc. induction fuel as [|n IH]; intros [|x l] [|j] ch H; cbn [pieces nth_error] in *; try discriminate.
  - injection H as <-. destruct c; [lia|discriminate].
  - eapply IH; eauto.
Qed.
Lemma pieces_nth : forall A c, (0 < c)%nat -> forall fuel (l : list A) j ch i x,
  nth_error (pieces fuel c l) j = Some ch -> nth_error ch i = Some x ->
  (i < c)%nat /\ nth_error l (c * j + i) = Some x.
Proof.
  intros A c Hc. induction fuel as [|n IH]; intros l j ch i x H Hi; [destruct j; discriminate|].
  destruct l as [|y l]; [destruct j; discriminate|]. cbn [pieces] in H.
  destruct j as [|j]; cbn [nth_error] in H.
  - injection H as <-. assert (i < c)%nat.
    { assert (i < length (firstn c (y :: l)))%nat by (apply nth_error_Some; congruence).
      rewrite firstn_length in H. lia. }
    split; auto. rewrite Nat.mul_0_r. cbn [Nat.add].
    rewrite <- (firstn_skipn c (y :: l)). rewrite nth_error_app1; auto. apply nth_error_Some. congruence.
  - destruct (IH _ _ _ _ _ H Hi) as [B E]. split; auto.
    assert (E2 : nth_error (skipn c (y :: l)) (c * j + i) <> None) by congruence.
    apply nth_error_Some in E2. rewrite skipn_length in E2.
    rewrite <- (firstn_skipn c (y :: l)). rewrite nth_error_app2; rewrite firstn_length_le; try lia.
    now replace (c * S j + i - c)%nat with (c * j + i)%nat by lia.
Qed.

(** ** loops *)
Lemma mapi_o_app : forall A B (g : nat -> A -> option B) a b k,
  mapi_o g k (a ++ b) =
  match mapi_o g k a with
  | Some x => match mapi_o g (k + length a) b with Some y => Some (x ++ y) | None => None end
  | None => None
  end.
Proof.
  induction a as [|x a IH]; intros b k; cbn.
  - rewrite Nat.add_0_r. destruct (mapi_o g k b); reflexivity.
  - destruct (g k x); auto. rewrite IH. rewrite <- plus_n_Sm. cbn [Nat.add].
    destruct (mapi_o g (S k) a); auto. destruct (mapi_o g (S (k + length a)) b); reflexivity.
Qed.
Lemma mapi_o_len : forall A B (g : nat -> A -> option B) l k ys, mapi_o g k l = Some ys -> length ys = length l.
Proof. intros A B g l k ys H. exact (proj1 (mapi_o_nth _ _ _ _ _ _ H)). Qed.
(** a check made for every cell is made once *)
Lemma mapi_o_guard : forall A B C (s : option C) (g : nat -> A -> option B) l k, l <> [] ->
  mapi_o (fun i x => match s with Some _ => g i x | None => None end) k l =
  match s with Some _ => mapi_o g k l | None => None end.
Proof. intros A B C [c|] g [|x l] k H; try congruence; auto. Qed.

Lemma for_mut_imap : forall A I S (mk : nat -> A -> I) (body : I -> S -> option (I * S)) (g : nat -> A -> option A)
    (P : S -> Prop) base l k s,
  P s ->
  (forall j x s, nth_error l j = Some x -> P s ->
     match g (base + (k + j))%nat x with
     | Some y => exists s', P s' /\ body (mk (k + j)%nat x) s = Some (mk (k + j)%nat y, s')
     | None => body (mk (k + j)%nat x) s = None
     end) ->
  match mapi_o g (base + k) l with
  | Some ys => exists s', P s' /\ for_mut (imap mk k l) body s = Some (imap mk k ys, s')
  | None => for_mut (imap mk k l) body s = None
  end.
Proof.
  intros A I S mk body g P base l. induction l as [|x l IH]; intros k s Ps H; cbn [mapi_o imap for_mut].
  - exists s. auto.
  - pose proof (H 0%nat x s eq_refl Ps) as H0. rewrite Nat.add_0_r in H0.
    destruct (g (base + k)%nat x) as [y|].
    2: { now rewrite H0. }
    destruct H0 as (s' & Ps' & E). rewrite E.
    specialize (IH (Datatypes.S k) s' Ps').
    rewrite <- plus_n_Sm in IH. cbn [Nat.add] in IH.
    assert (Hs : forall j x s, nth_error l j = Some x -> P s ->
      match g (base + (Datatypes.S k + j))%nat x with
      | Some y => exists s', P s' /\ body (mk (Datatypes.S k + j)%nat x) s = Some (mk (Datatypes.S k + j)%nat y, s')
      | None => body (mk (Datatypes.S k + j)%nat x) s = None
      end).
    { intros j z t Hj Pt. specialize (H (Datatypes.S j) z t Hj Pt). rewrite <- plus_n_Sm in H. exact H. }
    specialize (IH Hs).
    destruct (mapi_o g (Datatypes.S (base + k)) l) as [ys|].
    + destruct IH as (s'' & Ps'' & E2). exists s''. split; auto. now rewrite E2.
    + now rewrite IH.
Qed.
(** without state *)
Lemma for_mut_plain : forall A I (mk : nat -> A -> I) (body : I -> unit -> option (I * unit)) (g : nat -> A -> option A) base l,
  (forall j x, nth_error l j = Some x ->
     body (mk j x) tt = match g (base + j)%nat x with Some y => Some (mk j y, tt) | None => None end) ->
  for_mut (imap mk 0 l) body tt =
  match mapi_o g base l with Some ys => Some (imap mk 0 ys, tt) | None => None end.
Proof.
  intros A I mk body g base l H.
  pose proof (for_mut_imap A I unit mk body g (fun _ => True) base l 0 tt Logic.I) as F.
  rewrite Nat.add_0_r in F. cbn [Nat.add] in F.
  destruct (mapi_o g base l) as [ys|].
  - destruct F as ([] & _ & E); auto.
    intros j x [] Hj _. rewrite (H j x Hj). destruct (g (base + j)%nat x); auto. exists tt. auto.
  - apply F. intros j x [] Hj _. rewrite (H j x Hj). destruct (g (base + j)%nat x); auto. exists tt. auto.
Qed.

(** the chunks *)
Lemma for_mut_pieces : forall A I (mk : nat -> list A -> I) (body : I -> unit -> option (I * unit)) (g : nat -> A -> option A) c,
  (0 < c)%nat -> forall fuel l k,
  (length l <= fuel)%nat ->
  (forall j ch, nth_error (pieces fuel c l) j = Some ch ->
     body (mk (k + j)%nat ch) tt =
     match mapi_o g (c * (k + j)) ch with Some ys => Some (mk (k + j)%nat ys, tt) | None => None end) ->
  for_mut (imap mk k (pieces fuel c l)) body tt =
  match mapi_o g (c * k) l with Some ys => Some (imap mk k (pieces fuel c ys), tt) | None => None end.
Proof.
  intros A I mk body g c Hc. induction fuel as [|n IH]; intros l k HL H.
  - destruct l; [reflexivity|cbn in HL; lia].
  - destruct l as [|x l]; [reflexivity|].
    set (xs := x :: l) in *.
    assert (U : forall zs : list A, zs <> [] -> pieces (S n) c zs = firstn c zs :: pieces n c (skipn c zs)) by (intros [|z zs] Z; [congruence|reflexivity]).
    assert (NE : xs <> []) by discriminate.
    rewrite (U xs NE). cbn [imap for_mut].
    pose proof (H 0%nat (firstn c xs)) as H0. rewrite Nat.add_0_r in H0.
    rewrite H0 by (rewrite (U xs NE); reflexivity).
    assert (IH' := IH (skipn c xs) (S k)).
    assert (HS : (length (skipn c xs) <= n)%nat).
    { rewrite skipn_length. unfold xs in *. cbn [length] in *. lia. }
    specialize (IH' HS).
    assert (HJ : forall j ch, nth_error (pieces n c (skipn c xs)) j = Some ch ->
      body (mk (S k + j)%nat ch) tt =
      match mapi_o g (c * (S k + j)) ch with Some ys => Some (mk (S k + j)%nat ys, tt) | None => None end).
    { intros j ch E. specialize (H (S j) ch). rewrite <- plus_n_Sm in H. apply H. rewrite (U xs NE). exact E. }
    specialize (IH' HJ). clear H H0 HJ IH.
    pose proof (mapi_o_app _ _ g (firstn c xs) (skipn c xs) (c * k)) as MA.
    rewrite firstn_skipn in MA. rewrite MA. clear MA.
    destruct (mapi_o g (c * k) (firstn c xs)) as [ys|] eqn:E1; [|reflexivity].
    rewrite IH'. clear IH'.
    pose proof (mapi_o_len _ _ _ _ _ _ E1) as L1.
    destruct (Nat.le_gt_cases c (length xs)) as [Hle|Hgt].
    + rewrite firstn_length_le in * by auto.
      replace (c * k + c)%nat with (c * S k)%nat by lia.
      destruct (mapi_o g (c * S k) (skipn c xs)) as [zs|]; auto.
      assert (N2 : ys ++ zs <> []) by (destruct ys; [cbn in L1; lia|discriminate]).
      rewrite (U _ N2). cbn [imap].
      rewrite firstn_app, L1, Nat.sub_diag, firstn_O, app_nil_r, <- L1, firstn_all.
      rewrite skipn_app, skipn_all, Nat.sub_diag, skipn_O. reflexivity.
    + rewrite (skipn_all2 xs) in * by lia. cbn [mapi_o].
      assert (N2 : ys ++ [] <> []) by (rewrite app_nil_r; rewrite firstn_length in L1; destruct ys; [cbn in L1; unfold xs in *; cbn [length] in *; lia|discriminate]).
      rewrite (U _ N2). cbn [imap]. rewrite app_nil_r.
      rewrite firstn_length in L1.
      rewrite firstn_all2, skipn_all2 by lia. reflexivity.
Qed.

Lemma write_back_all : forall A (old new : list A), length new = length old -> write_back old new = new.
Proof. intros A old new H. unfold write_back. rewrite H, skipn_all. apply app_nil_r. Qed.
Lemma pieces_count : forall A c k fuel (l : list A), (length l <= c * k)%nat -> (length (pieces fuel c l) <= k)%nat.
Proof. intros. rewrite pieces_chunks. now apply chunks_of_count. Qed.
