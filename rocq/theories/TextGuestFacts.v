(** * The translated guests, their allocator and their host programs: facts

    The operators of Rust.v on 32-bit words are those of Guests.v and Alloc.v, and
    the loops of the text are the loops of the model. *)
Require Import ZArith List Bool Lia Arith.
From Verif Require Import Rust RustIter RustStr RustGuest.
Require Verif.Word Verif.Guests Verif.GuestSpec Verif.PropGuests Verif.Alloc Verif.Otc.
Import ListNotations.
Open Scope Z_scope.
Module W := Verif.Word.
Module G := Verif.Guests.
Module A := Verif.Alloc.
Local Notation u32 := (Rust.int Rust.U32).
Local Notation u8 := (Rust.int Rust.U8).
Notation chk := overflow_checks.

Definition word (z : Z) : Prop := 0 <= z < 4294967296.
Lemma word_u32 z : word (W.u32 z).
Proof. unfold word, W.u32. apply Z.mod_pos_bound. lia. Qed.
Lemma fits_u32 z : fits U32 z = (0 <=? z) && (z <? 4294967296).
Proof. unfold fits. cbn. destruct (0 <=? z); [|reflexivity]. cbn. lia. Qed.

Lemma add_word p a b : word a -> word b -> Rust.add p (@Int U32 a) (@Int U32 b) = option_map Int (G.r_add (chk p) a b).
Proof.
  unfold word. intros A B. unfold Rust.add, checked, G.r_add, W.wadd, W.u32. cbn [val]. rewrite fits_u32.
  destruct (Z.ltb_spec (a + b) 4294967296), (Z.leb_spec 4294967296 (a + b)), (Z.leb_spec 0 (a + b)); try lia; cbn [andb].
  - rewrite andb_false_r. cbn. rewrite Z.mod_small by lia. reflexivity.
  - rewrite andb_true_r. destruct (chk p); reflexivity.
Qed.
Lemma sub_word p a b : word a -> word b -> Rust.sub p (@Int U32 a) (@Int U32 b) = option_map Int (G.r_sub (chk p) a b).
Proof.
  unfold word. intros A B. unfold Rust.sub, checked, G.r_sub, W.wsub, W.u32. cbn [val]. rewrite fits_u32.
  destruct (Z.ltb_spec (a - b) 4294967296), (Z.ltb_spec a b), (Z.leb_spec 0 (a - b)); try lia; cbn [andb].
  - rewrite andb_true_r. destruct (chk p); reflexivity.
  - rewrite andb_false_r. cbn. rewrite Z.mod_small by lia. reflexivity.
Qed.
Lemma mul_word p a b : word a -> word b -> Rust.mul p (@Int U32 a) (@Int U32 b) = option_map Int (G.r_mul (chk p) a b).
Proof.
  unfold word. intros A B. unfold Rust.mul, checked, G.r_mul, W.wmul, W.u32. cbn [val]. rewrite fits_u32.
  assert (0 <= a * b) by nia.
  destruct (Z.ltb_spec (a * b) 4294967296), (Z.leb_spec 4294967296 (a * b)), (Z.leb_spec 0 (a * b)); try lia; cbn [andb].
  - rewrite andb_false_r. cbn. rewrite Z.mod_small by lia. reflexivity.
  - rewrite andb_true_r. destruct (chk p); reflexivity.
Qed.
Lemma div_word a b : word a -> word b -> Rust.div (@Int U32 a) (@Int U32 b) = option_map Int (G.r_div a b).
Proof.
  unfold word. intros A B. unfold Rust.div, div_ok, G.r_div. cbn [val is_signed andb negb]. rewrite andb_true_r.
  destruct (b =? 0) eqn:E; cbn; [reflexivity|]. rewrite Z.quot_div_nonneg by lia. reflexivity.
Qed.
Lemma r_add_word c a b r : G.r_add c a b = Some r -> word r.
Proof. unfold G.r_add, W.wadd. destruct (c && _); [discriminate|]. injection 1 as <-. apply word_u32. Qed.
Lemma r_sub_word c a b r : G.r_sub c a b = Some r -> word r.
Proof. unfold G.r_sub, W.wsub. destruct (c && _); [discriminate|]. injection 1 as <-. apply word_u32. Qed.
Lemma r_mul_word c a b r : G.r_mul c a b = Some r -> word r.
Proof. unfold G.r_mul, W.wmul. destruct (c && _); [discriminate|]. injection 1 as <-. apply word_u32. Qed.
Lemma r_div_word a b r : word a -> word b -> G.r_div a b = Some r -> word r.
Proof.
  unfold word, G.r_div. intros A B. destruct (Z.eqb_spec b 0); [discriminate|]. injection 1 as <-.
  split; [apply Z.div_pos; lia|]. apply Z.le_lt_trans with a; [|lia]. apply Z.div_le_upper_bound; nia.
Qed.

(** ** loops *)
(** the polynomial's loop, in the form both programs use it *)
Lemma poly_loop p x : word x -> forall cs e q, Forall word cs -> word e -> word q ->
  option_map fst (for_each (map Int cs) (fun (coeff : u32) (s : u32 * u32) =>
    match s with (evaluation, pow_point) =>
    match Rust.mul p coeff pow_point with Some t1 =>
    match Rust.add p evaluation t1 with Some t2 =>
    match Rust.mul p pow_point (Int x) with Some t3 => Some (t2, t3) | None => None end | None => None end | None => None end end) (@Int U32 e, @Int U32 q))
  = option_map Int (G.evaluate (chk p) cs x e q).
Proof.
  intros X cs. induction cs as [|c cs IH]; intros e q F E Q; [reflexivity|].
  apply Forall_cons_iff in F as [C F]. cbn [map for_each G.evaluate].
  rewrite mul_word by assumption. destruct (G.r_mul (chk p) c q) as [m|] eqn:M; [|reflexivity]. cbn [option_map].
  rewrite add_word by (try assumption; eapply r_mul_word; exact M). destruct (G.r_add (chk p) e m) as [e'|] eqn:EA; [|reflexivity]. cbn [option_map].
  rewrite mul_word by assumption. destruct (G.r_mul (chk p) q x) as [q'|] eqn:QM; [|reflexivity]. cbn [option_map].
  apply IH; [exact F | eapply r_add_word; exact EA | eapply r_mul_word; exact QM].
Qed.

(** the two folds of guest-test1 *)
Lemma fold_sum p a : word a -> forall vs (acc : option Z), Forall word vs -> (forall z, acc = Some z -> word z) ->
  match option_map Int acc with
  | Some s => for_each (map Int vs) (fun (v acc : u32) =>
      match Rust.add p acc (Int a) with Some t2 => match Rust.add p t2 v with Some t3 => Some t3 | None => None end | None => None end) s
  | None => None
  end
  = option_map Int (fold_left (fun acc v => match acc with Some x => match G.r_add (chk p) x a with Some y => G.r_add (chk p) y v | None => None end | None => None end) vs acc).
Proof.
  intros AW vs. induction vs as [|v vs IH]; intros acc F HA; [destruct acc; reflexivity|].
  apply Forall_cons_iff in F as [V F]. cbn [map for_each fold_left].
  rewrite <- IH; [|exact F|].
  - destruct acc as [x|]; [|reflexivity]. cbn [option_map]. specialize (HA x eq_refl).
    rewrite add_word by assumption. destruct (G.r_add (chk p) x a) as [y|] eqn:EY; [|reflexivity]. cbn [option_map].
    rewrite add_word by (try assumption; eapply r_add_word; exact EY). destruct (G.r_add (chk p) y v); reflexivity.
  - destruct acc as [x|]; [|discriminate]. intro z. destruct (G.r_add (chk p) x a) as [y|] eqn:EY; [|discriminate]. apply r_add_word.
Qed.
Lemma fold_prod p a : word a -> forall vs (acc : option Z), Forall word vs -> (forall z, acc = Some z -> word z) ->
  match option_map Int acc with
  | Some s => for_each (map Int vs) (fun (v acc : u32) =>
      match Rust.mul p (Int a) v with Some t5 => match Rust.add p acc t5 with Some t6 => Some t6 | None => None end | None => None end) s
  | None => None
  end
  = option_map Int (fold_left (fun acc v => match acc with Some x => match G.r_mul (chk p) a v with Some y => G.r_add (chk p) x y | None => None end | None => None end) vs acc).
Proof.
  intros AW vs. induction vs as [|v vs IH]; intros acc F HA; [destruct acc; reflexivity|].
  apply Forall_cons_iff in F as [V F]. cbn [map for_each fold_left].
  rewrite <- IH; [|exact F|].
  - destruct acc as [x|]; [|reflexivity]. cbn [option_map]. specialize (HA x eq_refl).
    rewrite mul_word by assumption. destruct (G.r_mul (chk p) a v) as [y|] eqn:EY; [|reflexivity]. cbn [option_map].
    rewrite add_word by (try assumption; eapply r_mul_word; exact EY). destruct (G.r_add (chk p) x y); reflexivity.
  - destruct acc as [x|]; [|discriminate]. intro z. destruct (G.r_mul (chk p) a v) as [y|] eqn:EY; [|discriminate]. apply r_add_word.
Qed.

(** ** strings *)
Lemma replace_map {B} (f : Z -> B) : forall l n x, replace (map f l) n (f x) = option_map (map f) (W.set_nth l n x).
Proof.
  induction l as [|h l IH]; intros n x; [reflexivity|]. destruct n as [|n]; [reflexivity|]. cbn [map replace W.set_nth].
  rewrite IH. destruct (W.set_nth l n x); reflexivity.
Qed.
Lemma new_loop : forall s k (acc : option (list Z)),
  match option_map (map (@Int U8)) acc with
  | Some l => for_each (combine (@counting USize (length s) (Z.of_nat k)) (map (@Int U8) s))
      (fun '(i, byte) (characters : list u8) => match store characters i byte with Some t1 => Some t1 | None => None end) l
  | None => None
  end
  = option_map (map Int) (fold_left (fun acc (ib : nat * Z) => match acc with Some l => W.set_nth l (fst ib) (snd ib) | None => None end) (combine (seq k (length s)) s) acc).
Proof.
  induction s as [|b s IH]; intros k acc; [destruct acc; reflexivity|].
  cbn [length counting map combine seq fold_left for_each fst snd].
  replace (Z.of_nat k + 1) with (Z.of_nat (Datatypes.S k)) by lia. rewrite <- IH. destruct acc as [l|]; [|reflexivity]. cbn [option_map].
  unfold store. cbn [val]. rewrite Nat2Z.id, replace_map. destruct (W.set_nth l k b); reflexivity.
Qed.
Lemma eq_loop : forall n i (a b : list Z),
  each_ret (@counting USize n (Z.of_nat i)) (fun i =>
    match index (map (@Int U8) a) i with Some t1 => match index (map (@Int U8) b) i with Some t2 =>
      if ne t1 t2 then Some (inl false) else Some (inr tt) | None => None end | None => None end)
  = match G.bounded_eq_from n i a b with Some true => Some (inr tt) | Some false => Some (inl false) | None => None end.
Proof.
  induction n as [|n IH]; intros i a b; [reflexivity|]. cbn [counting each_ret G.bounded_eq_from].
  assert (I : forall l, index (map (@Int U8) l) (Int (Z.of_nat i)) = option_map Int (nth_error l i)).
  { intro l. unfold index. cbn [val]. rewrite Nat2Z.id. apply nth_error_map. }
  rewrite !I.
  destruct (nth_error a i) as [x|]; [|reflexivity]. destruct (nth_error b i) as [y|]; [|reflexivity]. cbn [option_map].
  replace (ne (@Int U8 x) (Int y)) with (negb (x =? y)) by reflexivity. destruct (x =? y); cbn [negb]; [|reflexivity].
  replace (Z.of_nat i + 1) with (Z.of_nat (Datatypes.S i)) by lia. apply IH.
Qed.
