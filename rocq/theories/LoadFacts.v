(** Loading an image (proofs). *)
Require Import ZArith Lia Bool List Arith.
Require Import ZifyBool.
Require Import Verif.Word Verif.Isa Verif.Bits Verif.EvalSpec Verif.EvalFacts Verif.ListFacts Verif.TestRunSpec Verif.RunSpec
  Verif.IsaSplit Verif.RunFacts Verif.Loader Verif.LoadSpec.
Import ListNotations.
Open Scope Z_scope.
Ltac Zify.zify_post_hook ::= idtac.

(** ** slices *)
Lemma nth_error_firstn A (l : list A) : forall n i, nth_error (firstn n l) i = if (i <? n)%nat then nth_error l i else None.
Proof.
  induction l as [|x l IH]; intros n i.
  - rewrite firstn_nil. destruct i; destruct (_ <? _)%nat; reflexivity.
  - destruct n; cbn [firstn]; [destruct i; reflexivity|]. destruct i; [reflexivity|]. cbn [nth_error]. rewrite IH. reflexivity.
Qed.
Lemma nth_error_skipn A (l : list A) : forall n i, nth_error (skipn n l) i = nth_error l (n + i).
Proof.
  induction l as [|x l IH]; intros n i.
  - rewrite skipn_nil. destruct i, n; reflexivity.
  - destruct n; [reflexivity|]. cbn [skipn plus nth_error]. apply IH.
Qed.
Lemma slice_some xs lo hi r : slice xs lo hi = Some r -> 0 <= lo ->
  lo <= hi <= Z.of_nat (length xs) /\ Z.of_nat (length r) = hi - lo /\
  forall i, (i < length r)%nat -> nth_error r i = nth_error xs (Z.to_nat lo + i).
Proof.
  unfold slice. intros H H0. destruct ((lo <=? hi) && (hi <=? Z.of_nat (length xs))) eqn:B; [|discriminate].
  injection H as <-. assert (lo <= hi <= Z.of_nat (length xs)) by lia. clear B. split; [assumption|].
  assert (L : Z.of_nat (length (firstn (Z.to_nat (hi - lo)) (skipn (Z.to_nat lo) xs))) = hi - lo).
  { rewrite firstn_length, skipn_length. lia. }
  split; [exact L|]. intros i Hi. rewrite nth_error_firstn, nth_error_skipn. destruct (Nat.ltb_spec i (Z.to_nat (hi - lo))); [reflexivity|lia].
Qed.
Lemma slice_ok xs lo hi : lo <= hi <= Z.of_nat (length xs) -> exists r, slice xs lo hi = Some r.
Proof. intros H. unfold slice. destruct ((lo <=? hi) && (hi <=? Z.of_nat (length xs))) eqn:B; [eauto|lia]. Qed.
Lemma slice_Forall P xs lo hi r : slice xs lo hi = Some r -> Forall P xs -> Forall P r.
Proof.
  unfold slice. destruct (_ && _); [|discriminate]. intros [= <-] F. apply Forall_forall. intros x Hx.
  apply (proj1 (Forall_forall P xs) F). assert (Hx' : In x (skipn (Z.to_nat lo) xs)).
  { rewrite <- (firstn_skipn (Z.to_nat (hi - lo)) (skipn (Z.to_nat lo) xs)). apply in_or_app. auto. }
  rewrite <- (firstn_skipn (Z.to_nat lo) xs). apply in_or_app. auto.
Qed.
Lemma copy_some xs lo hi src r : copy_into xs lo hi src = Some r -> 0 <= lo ->
  lo <= hi <= Z.of_nat (length xs) /\ Z.of_nat (length src) = hi - lo /\ length r = length xs /\
  forall i, nth_error r i = if (lo <=? Z.of_nat i) && (Z.of_nat i <? hi) then nth_error src (i - Z.to_nat lo) else nth_error xs i.
Proof.
  unfold copy_into. intros H H0.
  destruct ((lo <=? hi) && (hi <=? Z.of_nat (length xs)) && (Z.of_nat (length src) =? hi - lo)) eqn:B; [|discriminate].
  injection H as <-. assert (B1 : lo <= hi <= Z.of_nat (length xs)) by lia. assert (B2 : Z.of_nat (length src) = hi - lo) by lia. clear B.
  assert (L1 : length (firstn (Z.to_nat lo) xs) = Z.to_nat lo) by (rewrite firstn_length; lia).
  split; [exact B1|]. split; [exact B2|]. split.
  - rewrite !app_length, L1, skipn_length. lia.
  - intros i. destruct (Z.leb_spec lo (Z.of_nat i)); cbn [andb].
    + rewrite nth_error_app2 by lia. rewrite L1. destruct (Z.ltb_spec (Z.of_nat i) hi).
      * apply nth_error_app1. lia.
      * rewrite nth_error_app2 by lia. rewrite nth_error_skipn. f_equal. lia.
    + rewrite nth_error_app1 by lia. rewrite nth_error_firstn. destruct (Nat.ltb_spec i (Z.to_nat lo)); [reflexivity|lia].
Qed.
Lemma copy_ok xs lo hi src : lo <= hi <= Z.of_nat (length xs) -> Z.of_nat (length src) = hi - lo ->
  exists r, copy_into xs lo hi src = Some r.
Proof.
  intros H H1. unfold copy_into.
  destruct ((lo <=? hi) && (hi <=? Z.of_nat (length xs)) && (Z.of_nat (length src) =? hi - lo)) eqn:B; [eauto|lia].
Qed.
Lemma Forall_nth_iff A (P : A -> Prop) l : Forall P l <-> forall i x, nth_error l i = Some x -> P x.
Proof.
  split; [intros F i x; apply nth_error_Forall; exact F|]. intros H. apply Forall_forall. intros x Hx.
  apply In_nth_error in Hx. destruct Hx as [i Hi]. eapply H; eauto.
Qed.
Lemma copy_Forall P xs lo hi src r : copy_into xs lo hi src = Some r -> 0 <= lo -> Forall P xs -> Forall P src -> Forall P r.
Proof.
  intros H H0 F G. destruct (copy_some _ _ _ _ _ H H0) as (_ & _ & _ & N). apply Forall_nth_iff. intros i x Hi.
  rewrite N in Hi. destruct (_ && _); [exact (nth_error_Forall _ P _ _ _ G Hi)|exact (nth_error_Forall _ P _ _ _ F Hi)].
Qed.

(** ** address arithmetic *)
Lemma uadd_ok chk a b : is_u32 a -> is_u32 b -> uadd chk a b = Some (a + b).
Proof. unfold is_u32, uadd. intros. destruct (Z.ltb_spec (a + b) 18446744073709551616); [reflexivity|lia]. Qed.
Lemma usub_ok chk a b : b <= a -> T.usub chk a b = Some (a - b).
Proof. intros. unfold T.usub. destruct (Z.leb_spec b a); [reflexivity|lia]. Qed.
Lemma usub_wrap chk a b r : 0 <= a < b -> b <= 2 ^ 33 -> T.usub chk a b = Some r -> 2 ^ 34 < r.
Proof.
  intros H Hb. unfold T.usub. destruct (Z.leb_spec b a); [lia|]. destruct chk; [discriminate|]. intros [= <-].
  unfold u64. replace (a - b) with (a - b + 2 ^ 64 + (-1) * 2 ^ 64) by lia. change 18446744073709551616 with (2 ^ 64).
  rewrite Z_mod_plus_full, Z.mod_small; lia.
Qed.
Lemma usub_nonneg chk a b r : 0 <= b -> T.usub chk a b = Some r -> 0 <= r.
Proof.
  intros Hb. unfold T.usub. destruct (Z.leb_spec b a); [intros [= <-]; lia|]. destruct chk; [discriminate|]. intros [= <-].
  unfold u64. apply Z.mod_pos_bound. lia.
Qed.
Lemma range_ok chk start len off : is_u32 start -> is_u32 len -> off <= start ->
  range_from chk start len off = Some (start - off, start + len - off).
Proof.
  intros H1 H2 H3. unfold range_from. rewrite usub_ok by assumption. rewrite uadd_ok by assumption.
  unfold is_u32 in *. rewrite usub_ok by lia. reflexivity.
Qed.
(** a range that starts below the offset is not inside any vector of 2^34 bytes or less *)
Lemma range_some chk start len off lo hi : is_u32 start -> is_u32 len -> is_u32 off -> lo <= 2 ^ 34 ->
  range_from chk start len off = Some (lo, hi) -> off <= start /\ lo = start - off /\ hi = start + len - off.
Proof.
  intros H1 H2 H3 HL H. destruct (Z.le_gt_cases off start) as [HO|HO].
  - rewrite range_ok in H by assumption. split; [assumption|]. split; congruence.
  - exfalso. unfold range_from in H. destruct (T.usub chk start off) as [l|] eqn:U; [|discriminate].
    unfold is_u32 in *. apply usub_wrap in U; [|lia|lia]. cbv beta iota in H. rewrite uadd_ok in H by assumption.
    destruct (T.usub chk (start + len) off); [|discriminate]. assert (lo = l) by congruence. lia.
Qed.
Lemma range_lo chk start len off lo hi : 0 <= off -> range_from chk start len off = Some (lo, hi) -> 0 <= lo.
Proof.
  intros H0 H. unfold range_from in H. destruct (T.usub chk start off) as [l|] eqn:U; [|discriminate].
  cbv beta iota in H. destruct (uadd chk start len) as [s|]; [|discriminate]. cbv beta iota in H.
  destruct (T.usub chk s off); [|discriminate]. assert (lo = l) by congruence. subst l. eapply usub_nonneg; eauto.
Qed.

(** ** segments *)
Definition copied (h : phdr) : bool := (0 <? p_memsz h) && (p_filesz h =? p_memsz h).
Definition in_fileb (h : phdr) (a : Z) : bool := (p_vaddr h <=? a) && (a <? p_vaddr h + p_filesz h).
Lemma in_fileb_iff h a : in_fileb h a = true <-> in_file h a.
Proof. unfold in_fileb, in_file. lia. Qed.

Lemma copy_segment_ok chk e off d h d' : Forall is_byte (e_bytes e) -> phdr_ok h -> is_u32 off ->
  Z.of_nat (length d) = RAM_SIZE -> copy_segment chk (e_bytes e) off (Some d) h = Some d' ->
  length d' = length d /\
  (copied h = true -> off <= p_vaddr h /\ p_vaddr h + p_filesz h <= off + RAM_SIZE /\
     p_offset h + p_filesz h <= Z.of_nat (length (e_bytes e))) /\
  forall i, nth_error d' i = if copied h && in_fileb h (off + Z.of_nat i) then file_byte e h (off + Z.of_nat i) else nth_error d i.
Proof.
  intros HB (O & V & F & M) HO HL H. unfold copy_segment in H. unfold copied. destruct ((0 <? p_memsz h) && (p_filesz h =? p_memsz h)) eqn:C.
  2:{ injection H as <-. split; [reflexivity|]. split; [discriminate|]. reflexivity. }
  assert (E : p_filesz h = p_memsz h) by lia. clear C.
  destruct (range_from chk (p_vaddr h) (p_memsz h) off) as [[lo hi]|] eqn:R; [|discriminate].
  rewrite uadd_ok in H by assumption. destruct (slice (e_bytes e) (p_offset h) (p_memsz h + p_offset h)) as [src|] eqn:S; [|discriminate].
  unfold is_u32 in *.
  destruct (copy_some _ _ _ _ _ H) as (C1 & C2 & C3 & C4); [eapply range_lo; [|exact R]; lia|].
  unfold RAM_SIZE in *.
  destruct (range_some chk (p_vaddr h) (p_memsz h) off lo hi) as (R1 & R2 & R3); unfold is_u32; auto; [lia|].
  destruct (slice_some _ _ _ _ S) as (S1 & S2 & S3); [lia|].
  split; [exact C3|]. split; [intros _; lia|]. intros i. rewrite C4. unfold in_fileb, file_byte. cbn [andb].
  replace ((p_vaddr h <=? off + Z.of_nat i) && (off + Z.of_nat i <? p_vaddr h + p_filesz h))
    with ((lo <=? Z.of_nat i) && (Z.of_nat i <? hi)) by lia.
  destruct ((lo <=? Z.of_nat i) && (Z.of_nat i <? hi)) eqn:B; [|reflexivity].
  rewrite S3 by lia. f_equal. lia.
Qed.
Lemma copy_segment_none chk bytes off h : copy_segment chk bytes off None h = None.
Proof. reflexivity. Qed.
Lemma fold_none chk bytes off hs : fold_left (copy_segment chk bytes off) hs None = None.
Proof. induction hs; auto. Qed.

(** the last copied segment covering an address decides its byte *)
Definition source (hs : list phdr) (a : Z) : option phdr := find (fun h => copied h && in_fileb h a) (rev hs).
Lemma find_app A (f : A -> bool) xs ys : find f (xs ++ ys) = match find f xs with Some x => Some x | None => find f ys end.
Proof. induction xs as [|x xs IH]; cbn; [reflexivity|]. destruct (f x); auto. Qed.
Lemma fold_segments chk e off hs : Forall is_byte (e_bytes e) -> Forall phdr_ok hs -> is_u32 off -> forall d d',
  Z.of_nat (length d) = RAM_SIZE -> fold_left (copy_segment chk (e_bytes e) off) hs (Some d) = Some d' ->
  length d' = length d /\
  (forall h, In h hs -> copied h = true -> off <= p_vaddr h /\ p_vaddr h + p_filesz h <= off + RAM_SIZE /\
     p_offset h + p_filesz h <= Z.of_nat (length (e_bytes e))) /\
  forall i, nth_error d' i = match source hs (off + Z.of_nat i) with Some h => file_byte e h (off + Z.of_nat i) | None => nth_error d i end.
Proof.
  intros HB F HO. induction F as [|h hs Hh _ IH]; intros d d' HL H.
  - cbn in H. injection H as <-. split; [reflexivity|]. split; [intros ? []|reflexivity].
  - cbn [fold_left] in H. destruct (copy_segment chk (e_bytes e) off (Some d) h) as [d1|] eqn:C; [|rewrite fold_none in H; discriminate].
    destruct (copy_segment_ok chk e off d h d1 HB Hh HO HL C) as (C1 & C2 & C3).
    destruct (IH d1 d' ltac:(lia) H) as (I1 & I2 & I3).
    split; [congruence|]. split; [intros h' [<-|Hi]; auto|]. intros i. rewrite I3. unfold source. cbn [rev]. rewrite find_app.
    destruct (find _ (rev hs)); [reflexivity|]. cbn [find]. rewrite C3.
    destruct (copied h && in_fileb h (off + Z.of_nat i)); reflexivity.
Qed.

Lemma data_hdrs_in e h : In h (data_hdrs e) <-> data_segment e h.
Proof.
  unfold data_hdrs, loadable, data_segment, PF_R, PF_W, PT_LOAD. rewrite !filter_In. split; intros H; destruct H as [H1 H2];
    [destruct H1|]; repeat split; try tauto; lia.
Qed.

Lemma from_elf_ok chk e ph : elf_ok e -> from_elf chk e = Some ph ->
  (exists txt, In txt (e_phdrs e) /\ find (fun h => p_flags h =? 5) (filter (fun h => p_type h =? 1) (e_phdrs e)) = Some txt /\
     p_filesz txt = p_memsz txt /\ p_vaddr txt = 0 /\
     b_offset (boot_rom ph) = 0 /\ b_size (boot_rom ph) = p_memsz txt /\ is_u32 (p_memsz txt) /\
     Z.of_nat (length (b_data (boot_rom ph))) = p_memsz txt /\ Forall is_byte (b_data (boot_rom ph)) /\
     forall i, (i < length (b_data (boot_rom ph)))%nat ->
       nth_error (b_data (boot_rom ph)) i = nth_error (e_bytes e) (Z.to_nat (p_offset txt) + i)) /\
  b_offset (boot_ram ph) = match data_hdrs e with [] => 0 | h :: _ => p_vaddr h end /\
  is_u32 (b_offset (boot_ram ph)) /\ b_size (boot_ram ph) = RAM_SIZE /\
  Z.of_nat (length (b_data (boot_ram ph))) = RAM_SIZE /\ Forall is_byte (b_data (boot_ram ph)) /\
  (forall h, In h (data_hdrs e) -> copied h = true -> b_offset (boot_ram ph) <= p_vaddr h /\
     p_vaddr h + p_filesz h <= b_offset (boot_ram ph) + RAM_SIZE /\ p_offset h + p_filesz h <= Z.of_nat (length (e_bytes e))) /\
  (forall i, nth_error (b_data (boot_ram ph)) i = match source (data_hdrs e) (b_offset (boot_ram ph) + Z.of_nat i) with
     | Some h => file_byte e h (b_offset (boot_ram ph) + Z.of_nat i)
     | None => nth_error (repeat 0 (Z.to_nat RAM_SIZE)) i end) /\
  e_inpdata e = Some (inp_info ph) /\ e_outdata e = Some (out_info ph) /\ info_ok (inp_info ph) /\ info_ok (out_info ph).
Proof.
  intros (HB & HP & HI & HO) H. unfold from_elf in H.
  destruct (find (fun h => p_flags h =? PF_R + PF_X) (loadable e)) as [txt|] eqn:FT; [|discriminate].
  cbv beta iota in H.
  destruct (Z.eqb_spec (p_filesz txt) (p_memsz txt)) as [E1|]; [|discriminate].
  destruct (Z.eqb_spec (p_vaddr txt) 0) as [E2|]; [|discriminate].
  assert (IT : In txt (e_phdrs e)).
  { apply find_some in FT as [FT _]. unfold loadable in FT. apply filter_In in FT as [FT _]. exact FT. }
  destruct (proj1 (Forall_forall _ _) HP txt IT) as (O & V & F & M).
  rewrite uadd_ok in H by assumption.
  destruct (slice (e_bytes e) (p_offset txt) (p_offset txt + p_memsz txt)) as [code|] eqn:S; [|discriminate].
  cbv beta iota zeta in H. set (off := match data_hdrs e with [] => 0 | h :: _ => p_vaddr h end) in *.
  assert (HO' : is_u32 off).
  { unfold off. destruct (data_hdrs e) as [|h t] eqn:D; [unfold is_u32; lia|].
    assert (In h (data_hdrs e)) as Hh by (rewrite D; left; reflexivity). apply data_hdrs_in in Hh as [Hh _].
    apply (proj1 (Forall_forall _ _) HP h Hh). }
  assert (HF : Forall phdr_ok (data_hdrs e)).
  { apply Forall_forall. intros h Hh. apply data_hdrs_in in Hh as [Hh _]. apply (proj1 (Forall_forall _ _) HP h Hh). }
  destruct (fold_left (copy_segment chk (e_bytes e) off) (data_hdrs e) (Some (repeat 0 (Z.to_nat RAM_SIZE)))) as [data|] eqn:FD; [|discriminate].
  destruct (e_inpdata e) as [inp|] eqn:EI; [|discriminate]. destruct (e_outdata e) as [out|] eqn:EO; [|discriminate].
  injection H as <-. cbn [boot_rom boot_ram inp_info out_info b_offset b_size b_data].
  destruct (fold_segments chk e off (data_hdrs e) HB HF HO' (repeat 0 (Z.to_nat RAM_SIZE)) data) as (D1 & D2 & D3);
    [rewrite repeat_length; reflexivity|exact FD|].
  unfold is_u32 in O. destruct (slice_some _ _ _ _ S) as (S1 & S2 & S3); [lia|].
  assert (LD : Z.of_nat (length data) = RAM_SIZE) by (rewrite D1, repeat_length; reflexivity).
  split.
  { exists txt. repeat match goal with |- _ /\ _ => split end; auto.
    - lia.
    - eapply slice_Forall; eauto. }
  repeat match goal with |- _ /\ _ => split end; auto.
  apply Forall_nth_iff. intros i x Hx. rewrite D3 in Hx. destruct (source _ _).
  - unfold file_byte in Hx. eapply nth_error_Forall; eauto.
  - apply nth_error_In in Hx. apply repeat_spec in Hx. subst x. unfold is_byte. lia.
Qed.

(** ** words and bytes *)
Lemma shl32_small b k : is_byte b -> 0 <= k <= 24 -> shl32 b k = b * 2 ^ k.
Proof.
  unfold is_byte. intros H K. unfold shl32, u32. rewrite Z.shiftl_mul_pow2 by lia.
  change 4294967296 with (2 ^ 32). apply Z.mod_small. split; [apply Z.mul_nonneg_nonneg; lia|].
  apply Z.lt_le_trans with (2 ^ 8 * 2 ^ k).
  - apply Z.mul_lt_mono_pos_r; lia.
  - rewrite <- Z.pow_add_r by lia. apply Z.pow_le_mono_r; lia.
Qed.
Lemma le_word_eq a b c d : is_byte a -> is_byte b -> is_byte c -> is_byte d ->
  le_word [a; b; c; d] = a + 256 * b + 65536 * c + 16777216 * d.
Proof.
  intros. unfold le_word. cbn [combine fold_left fst snd].
  change (0 * 8) with 0. change (1 * 8) with 8. change (2 * 8) with 16. change (3 * 8) with 24. rewrite !shl32_small by (auto; lia).
  change (2 ^ 0) with 1. change (2 ^ 8) with 256. change (2 ^ 16) with 65536. change (2 ^ 24) with 16777216. lia.
Qed.
Lemma le_word_bytes a b c d : is_byte a -> is_byte b -> is_byte c -> is_byte d ->
  word (le_word [a; b; c; d]) /\ le_bytes (le_word [a; b; c; d]) = [a; b; c; d].
Proof.
  intros A B C D. rewrite le_word_eq by assumption. unfold is_byte, word in *.
  split; [change (2 ^ 32) with 4294967296; lia|]. unfold le_bytes, byte.
  change (2 ^ (8 * 0)) with 1. change (2 ^ (8 * 1)) with 256. change (2 ^ (8 * 2)) with 65536. change (2 ^ (8 * 3)) with 16777216.
  change (2 ^ 8) with 256. repeat f_equal; Z.div_mod_to_equations; lia.
Qed.
Lemma chunks4_bytes : forall n bs, length bs = (4 * n)%nat -> Forall is_byte bs ->
  length (chunks4 bs) = n /\ Forall word (chunks4 bs) /\ ram_bytes (chunks4 bs) = bs.
Proof.
  induction n as [|n IH]; intros bs L F.
  - destruct bs; [|discriminate]. repeat split. constructor.
  - destruct bs as [|a [|b [|c [|d r]]]]; try (cbn in L; lia).
    inversion_clear F as [|? ? Fa F1]. inversion_clear F1 as [|? ? Fb F2]. inversion_clear F2 as [|? ? Fc F3]. inversion_clear F3 as [|? ? Fd F4].
    destruct (IH r ltac:(cbn in L; lia) F4) as (I1 & I2 & I3). destruct (le_word_bytes a b c d Fa Fb Fc Fd) as (W1 & W2).
    cbn [chunks4]. split; [cbn [length]; congruence|]. split; [constructor; assumption|].
    unfold ram_bytes in *. cbn [flat_map]. rewrite I3, W2. reflexivity.
Qed.
Lemma le_word_of w : word w -> le_word (le_bytes w) = w.
Proof.
  intros W. unfold le_bytes. rewrite le_word_eq by (unfold is_byte; apply byte_range).
  rewrite <- (bytes_word w W) at 5. change (2 ^ 8) with 256. change (2 ^ 16) with 65536. lia.
Qed.
Lemma chunks4_ram_bytes ws : Forall word ws -> chunks4 (ram_bytes ws) = ws.
Proof.
  induction 1 as [|w ws W _ IH]; [reflexivity|]. cbn [ram_bytes flat_map]. unfold le_bytes at 1. cbn [app chunks4].
  fold (ram_bytes ws). rewrite IH. f_equal. apply le_word_of. exact W.
Qed.
Lemma word_bytes_le w : word_bytes w = le_bytes w.
Proof.
  unfold word_bytes, le_bytes, byte. change 255 with (Z.ones 8). rewrite !Z.land_ones, !Z.shiftr_div_pow2 by lia.
  change (2 ^ (8 * 0)) with 1. rewrite Z.div_1_r. reflexivity.
Qed.
