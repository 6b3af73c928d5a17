(** When loading succeeds, and what the linker script's images look like (proofs). *)
Require Import ZArith Lia Bool List Arith.
Require Import ZifyBool.
Require Import Verif.Word Verif.Isa Verif.Bits Verif.EvalSpec Verif.TestRunSpec Verif.RunSpec Verif.ListFacts Verif.Loader Verif.LoadSpec Verif.LoadFacts Verif.Link.
Import ListNotations.
Open Scope Z_scope.
Ltac Zify.zify_post_hook ::= idtac.

(** ** success of loading *)
Definition seg_ok (e : elf) (off : Z) (h : phdr) : Prop :=
  off <= p_vaddr h /\ p_vaddr h + p_filesz h <= off + RAM_SIZE /\ p_offset h + p_filesz h <= Z.of_nat (length (e_bytes e)).
Lemma copy_segment_some chk e off d h : phdr_ok h -> is_u32 off -> Z.of_nat (length d) = RAM_SIZE ->
  (copied h = true -> seg_ok e off h) -> exists d', copy_segment chk (e_bytes e) off (Some d) h = Some d'.
Proof.
  intros (O & V & F & M) HO HL H. unfold copy_segment, copied in *. destruct ((0 <? p_memsz h) && (p_filesz h =? p_memsz h)) eqn:C; [|eauto].
  destruct (H eq_refl) as (A & B & D). assert (E : p_filesz h = p_memsz h) by lia. clear C H.
  rewrite range_ok by assumption. rewrite uadd_ok by assumption. unfold is_u32 in *.
  destruct (slice_ok (e_bytes e) (p_offset h) (p_memsz h + p_offset h)) as (src & S); [lia|]. rewrite S.
  destruct (slice_some _ _ _ _ S) as (S1 & S2 & _); [lia|]. apply copy_ok; [|lia]. unfold RAM_SIZE in *. lia.
Qed.
Lemma fold_segments_some chk e off hs : Forall is_byte (e_bytes e) -> Forall phdr_ok hs -> is_u32 off -> forall d,
  Z.of_nat (length d) = RAM_SIZE -> (forall h, In h hs -> copied h = true -> seg_ok e off h) ->
  exists d', fold_left (copy_segment chk (e_bytes e) off) hs (Some d) = Some d'.
Proof.
  intros HB F HO. induction F as [|h hs Hh _ IH]; intros d HL H; [eexists; reflexivity|].
  destruct (copy_segment_some chk e off d h Hh HO HL) as (d1 & D1); [apply H; left; reflexivity|].
  cbn [fold_left]. rewrite D1. destruct (copy_segment_ok chk e off d h d1 HB Hh HO HL D1) as (L & _).
  apply IH; [lia|]. intros h' Hi. apply H. right. exact Hi.
Qed.
Definition ram_base (e : elf) : Z := match data_hdrs e with [] => 0 | h :: _ => p_vaddr h end.
Lemma ram_base_ok e : elf_ok e -> is_u32 (ram_base e) /\ Forall phdr_ok (data_hdrs e).
Proof.
  intros (_ & HP & _). split.
  - unfold ram_base. destruct (data_hdrs e) as [|h t] eqn:D; [unfold is_u32; lia|].
    assert (In h (data_hdrs e)) as Hh by (rewrite D; left; reflexivity). apply data_hdrs_in in Hh as [Hh _].
    apply (proj1 (Forall_forall _ _) HP h Hh).
  - apply Forall_forall. intros h Hh. apply data_hdrs_in in Hh as [Hh _]. apply (proj1 (Forall_forall _ _) HP h Hh).
Qed.
Lemma loads_iff chk e : elf_ok e ->
  ((exists ph, from_elf chk e = Some ph) <->
   (exists txt, find (fun h => p_flags h =? 5) (filter (fun h => p_type h =? 1) (e_phdrs e)) = Some txt /\
      p_filesz txt = p_memsz txt /\ p_vaddr txt = 0 /\ p_offset txt + p_filesz txt <= Z.of_nat (length (e_bytes e))) /\
   (forall h, In h (data_hdrs e) -> copied h = true -> seg_ok e (ram_base e) h) /\
   e_inpdata e <> None /\ e_outdata e <> None).
Proof.
  intros HE. pose proof HE as (HB & HP & HI & HO). destruct (ram_base_ok e HE) as (RB & RF). split.
  - intros (ph & H). split; [|split].
    + unfold from_elf in H. change (PF_R + PF_X) with 5 in H. unfold loadable in H. change PT_LOAD with 1 in H.
      destruct (find _ _) as [txt|] eqn:FT; [|discriminate]. cbv beta iota in H. exists txt. split; [reflexivity|].
      destruct (Z.eqb_spec (p_filesz txt) (p_memsz txt)) as [E1|]; [|discriminate].
      destruct (Z.eqb_spec (p_vaddr txt) 0) as [E2|]; [|discriminate].
      apply find_some in FT as [FT _]. apply filter_In in FT as [FT _].
      destruct (proj1 (Forall_forall _ _) HP txt FT) as (O & V & F & M). rewrite uadd_ok in H by assumption.
      destruct (slice (e_bytes e) (p_offset txt) (p_offset txt + p_memsz txt)) as [code|] eqn:S; [|discriminate].
      unfold is_u32 in O. destruct (slice_some _ _ _ _ S) as (S1 & _); [lia|]. lia.
    + destruct (from_elf_ok chk e ph HE H) as (_ & A & _ & _ & _ & _ & R & _). fold (ram_base e) in A. rewrite <- A. exact R.
    + destruct (from_elf_ok chk e ph HE H) as (_ & _ & _ & _ & _ & _ & _ & _ & I & J & _). rewrite I, J. split; discriminate.
  - intros ((txt & FT & E1 & E2 & L) & R & EI & EO). unfold from_elf. change (PF_R + PF_X) with 5. unfold loadable. change PT_LOAD with 1.
    rewrite FT. cbv beta iota. rewrite E1, E2, !Z.eqb_refl.
    apply find_some in FT as [FT _]. apply filter_In in FT as [FT _].
    destruct (proj1 (Forall_forall _ _) HP txt FT) as (O & V & F & M). rewrite uadd_ok by assumption. unfold is_u32 in *.
    destruct (slice_ok (e_bytes e) (p_offset txt) (p_offset txt + p_memsz txt)) as (code & S); [lia|]. rewrite S. cbv beta iota zeta.
    fold (ram_base e).
    destruct (fold_segments_some chk e (ram_base e) (data_hdrs e) HB RF RB (repeat 0 (Z.to_nat RAM_SIZE))) as (d & D);
      [rewrite repeat_length; reflexivity|exact R|]. rewrite D. cbv beta iota.
    destruct (e_inpdata e); [|congruence]. destruct (e_outdata e); [|congruence]. eauto.
Qed.
(** the overflow checks make no difference *)
Lemma from_elf_chk e : elf_ok e -> from_elf true e = from_elf false e.
Proof.
  intros HE. assert (G : forall ph ph', from_elf true e = Some ph -> from_elf false e = Some ph' -> ph = ph').
  { intros ph ph' H H'.
    destruct (from_elf_ok _ _ _ HE H) as ((t & _ & F & _ & _ & O1 & O2 & _ & O3 & _ & O4) & A & _ & B & C & _ & _ & D & I & J & _).
    destruct (from_elf_ok _ _ _ HE H') as ((t' & _ & F' & _ & _ & O1' & O2' & _ & O3' & _ & O4') & A' & _ & B' & C' & _ & _ & D' & I' & J' & _).
    assert (t' = t) by congruence. subst t'.
    destruct ph as [[ro rs rd] [mo ms md] oi ii], ph' as [[ro' rs' rd'] [mo' ms' md'] oi' ii']. cbn [boot_rom boot_ram out_info inp_info b_offset b_size b_data] in *.
    assert (rd = rd').
    { apply nth_error_ext. intros i. destruct (Nat.lt_ge_cases i (length rd)) as [L|L].
      - rewrite O4, O4' by lia. reflexivity.
      - rewrite (proj2 (nth_error_None rd i)), (proj2 (nth_error_None rd' i)) by lia. reflexivity. }
    assert (E : mo = mo') by congruence.
    assert (md = md'). { apply nth_error_ext. intros i. rewrite D, D', E. reflexivity. }
    congruence. }
  pose proof (loads_iff true e HE) as L1. pose proof (loads_iff false e HE) as L2.
  destruct (from_elf true e) as [ph|] eqn:E1, (from_elf false e) as [ph'|] eqn:E2; try reflexivity.
  - f_equal. apply G; auto.
  - assert (X : exists ph, None = Some ph) by (apply L2, L1; eauto). destruct X; discriminate.
  - assert (X : exists ph, None = Some ph) by (apply L1, L2; eauto). destruct X; discriminate.
Qed.

(** ** the linker's images *)
Lemma len_nonneg l : 0 <= len l.
Proof. unfold len. lia. Qed.
Lemma len_app a b : len (a ++ b) = len a + len b.
Proof. unfold len. rewrite app_length. lia. Qed.
Definition hdr (pos : Z) (g : seg) : phdr := Phdr PT_LOAD (g_flags g) pos (g_addr g) (len (g_bytes g)) (g_mem g).
Lemma headers_in l : forall pos h, In h (headers pos l) <->
  exists pre g post, l = pre ++ g :: post /\ h = hdr (pos + len (flat_map g_bytes pre)) g.
Proof.
  induction l as [|g l IH]; intros pos h; cbn [headers].
  - split; [intros []|]. intros ([|? ?] & ? & ? & E & _); discriminate.
  - split.
    + intros [<-|H].
      * exists [], g, l. split; [reflexivity|]. unfold hdr. f_equal. cbn. lia.
      * apply IH in H as (pre & g' & post & E1 & E2). exists (g :: pre), g', post. split; [cbn; congruence|].
        rewrite E2. f_equal. cbn [flat_map]. rewrite len_app. lia.
    + intros ([|g0 pre] & g' & post & E1 & E2).
      * left. injection E1 as -> ->. rewrite E2. unfold hdr. f_equal. cbn. lia.
      * right. injection E1 as -> ->. apply IH. exists pre, g', post. split; [reflexivity|]. rewrite E2. f_equal. cbn [flat_map]. rewrite len_app. lia.
Qed.
Lemma file_byte_seg e l pre g post a : e_bytes e = flat_map g_bytes l -> l = pre ++ g :: post ->
  g_addr g <= a < g_addr g + len (g_bytes g) ->
  file_byte e (hdr (len (flat_map g_bytes pre)) g) a = nth_error (g_bytes g) (Z.to_nat (a - g_addr g)).
Proof.
  intros E -> Ha. unfold file_byte. rewrite E. cbn [hdr p_offset p_vaddr]. rewrite flat_map_app. cbn [flat_map].
  pose proof (len_nonneg (flat_map g_bytes pre)). unfold len in *.
  rewrite nth_error_app2 by lia. rewrite nth_error_app1 by lia. f_equal. lia.
Qed.

(** sizes of the parts *)
Definition objects_ok (o : objects) : Prop :=
  Forall word (o_text o) /\ Forall is_byte (o_inp o) /\ Forall is_byte (o_out o) /\ Forall is_byte (o_ro o) /\
  Forall is_byte (o_data o) /\ 0 <= o_bss o /\ o_inp o <> [].
Definition fits_memory (o : objects) : Prop := len (image (o_text o)) <= FLASH_LEN /\ end_at o <= RAM_ORIGIN + RAM_LEN.
Definition rx (o : objects) : seg := Seg 5 0 (image (o_text o)) (len (image (o_text o))).
Definition tail (o : objects) : list seg := match segments o with [] => [] | _ :: t => t end.
Lemma segments_eq o : segments o = rx o :: tail o.
Proof. reflexivity. Qed.
Lemma align4_spec x : exists k, align4 x = 4 * k /\ x <= align4 x < x + 4.
Proof. exists ((x + 3) / 4). unfold align4. split; [lia|]. Z.div_mod_to_equations. lia. Qed.
Lemma gap_len a b : a <= b -> len (gap a b) = b - a.
Proof. intros. unfold len, gap. rewrite repeat_length. lia. Qed.
Lemma addresses o : 0 <= o_bss o ->
  inp_at o = 2 ^ 18 /\ (exists k, out_at o = 4 * k) /\ (exists k, ro_at o = 4 * k) /\ (exists k, data_at o = 4 * k) /\ (exists k, bss_at o = 4 * k) /\
  inp_at o + len (o_inp o) <= out_at o /\ out_at o + len (o_out o) <= ro_at o /\ ro_at o + len (o_ro o) <= ro_end o /\ ro_end o = data_at o /\
  data_at o + len (o_data o) <= bss_at o /\ end_at o = bss_at o + o_bss o /\
  (o_ro o = [] -> ro_at o = data_at o) /\ (o_data o = [] -> bss_at o = data_at o).
Proof.
  intros Hb.
  destruct (align4_spec (inp_at o + len (o_inp o))) as (k1 & A1 & B1). fold (out_at o) in A1, B1.
  destruct (align4_spec (out_at o + len (o_out o))) as (k2 & A2 & B2). fold (ro_at o) in A2, B2.
  destruct (align4_spec (ro_at o + len (o_ro o))) as (k3 & A3 & B3). fold (ro_end o) in A3, B3.
  destruct (align4_spec (ro_end o)) as (k4 & A4 & B4). fold (data_at o) in A4, B4.
  destruct (align4_spec (data_at o + len (o_data o))) as (k5 & A5 & B5). fold (bss_at o) in A5, B5.
  split; [reflexivity|]. repeat match goal with |- _ /\ _ => split end; try (eexists; eassumption); try lia; try reflexivity.
  - intros E. assert (len (o_ro o) = 0) by (rewrite E; reflexivity). lia.
  - intros E. assert (len (o_data o) = 0) by (rewrite E; reflexivity). lia.
Qed.

Definition seg_fine (g : seg) : Prop :=
  (g_flags g = 4 \/ g_flags g = 6) /\ 2 ^ 18 <= g_addr g /\ len (g_bytes g) <= g_mem g /\ g_addr g + g_mem g <= 2 ^ 18 + 4096 /\ Forall is_byte (g_bytes g).
Definition before (g g' : seg) : Prop := g_addr g + g_mem g <= g_addr g'.
Lemma gap_bytes a b : Forall is_byte (gap a b).
Proof. apply Forall_forall. intros x Hx. apply repeat_spec in Hx. subst x. unfold is_byte. lia. Qed.
Lemma filter_ord A (R : A -> A -> Prop) f l : ForallOrdPairs R l -> ForallOrdPairs R (filter f l).
Proof.
  induction 1 as [|x l H _ IH]; [constructor|]. cbn [filter]. destruct (f x); [|exact IH]. constructor; [|exact IH].
  apply Forall_forall. intros y Hy. apply filter_In in Hy as [Hy _]. exact (proj1 (Forall_forall _ _) H y Hy).
Qed.
Lemma filter_Forall A (P : A -> Prop) f l : Forall P l -> Forall P (filter f l).
Proof. rewrite !Forall_forall. intros H x Hx. apply filter_In in Hx as [Hx _]. auto. Qed.
Lemma tail_fine o : objects_ok o -> fits_memory o -> Forall seg_fine (tail o) /\ ForallOrdPairs before (tail o) /\ (length (tail o) <= 4)%nat.
Proof.
  intros (_ & Bi & Bo & Br & Bd & Hb & _) (_ & HE).
  destruct (addresses o Hb) as (I & _ & _ & _ & _ & A1 & A2 & A3 & A4 & A5 & A6 & A7 & A8).
  pose proof (len_nonneg (o_inp o)) as L1. pose proof (len_nonneg (o_out o)) as L2. pose proof (len_nonneg (o_ro o)) as L3.
  pose proof (len_nonneg (o_data o)) as L4. unfold RAM_ORIGIN, RAM_LEN in HE.
  unfold tail, segments. cbv zeta beta iota.
  match goal with |- Forall _ (filter ?f ?l) /\ _ => set (L := l) end.
  assert (G : Forall seg_fine L /\ ForallOrdPairs before L /\ (length L <= 4)%nat).
  { subst L. destruct (o_ro o) as [|r0 ro] eqn:ER.
    - specialize (A7 eq_refl). destruct (o_data o) as [|d0 da] eqn:ED.
      + specialize (A8 eq_refl). split; [|split; [|cbn; lia]].
        * repeat apply Forall_cons; try apply Forall_nil; unfold seg_fine; cbn [g_flags g_addr g_bytes g_mem];
            destruct (Z.eqb_spec (o_bss o) 0); repeat match goal with |- _ /\ _ => split end; auto; try lia.
        * repeat constructor; unfold before; cbn [g_addr g_mem]; lia.
      + rewrite <- ED in *. rewrite !len_app, gap_len by lia. split; [|split; [|cbn; lia]].
        * repeat apply Forall_cons; try apply Forall_nil; unfold seg_fine; cbn [g_flags g_addr g_bytes g_mem];
            rewrite ?len_app, ?gap_len by lia;
            destruct (Z.eqb_spec (o_bss o) 0); repeat match goal with |- _ /\ _ => split end; auto; try lia;
            repeat (apply Forall_app; split); auto using gap_bytes.
        * repeat constructor; unfold before; cbn [g_addr g_mem]; lia.
    - rewrite <- ER in *. clear A7.
      set (first := match o_data o with [] => bss_at o | _ => data_at o end).
      assert (F : data_at o <= first <= bss_at o /\ first + len (o_data o) <= bss_at o).
      { subst first. destruct (o_data o) eqn:ED; [specialize (A8 eq_refl)|]; cbn in *; lia. }
      rewrite !len_app, gap_len by lia. split; [|split; [|cbn; lia]].
      + repeat apply Forall_cons; try apply Forall_nil; unfold seg_fine; cbn [g_flags g_addr g_bytes g_mem];
          rewrite ?len_app, ?gap_len by lia;
          destruct (Z.eqb_spec (o_bss o) 0); repeat match goal with |- _ /\ _ => split end; auto; try lia;
          repeat (apply Forall_app; split); auto using gap_bytes.
      + repeat constructor; unfold before; cbn [g_addr g_mem]; lia. }
  destruct G as (G1 & G2 & G3). split; [apply filter_Forall; exact G1|]. split; [apply filter_ord; exact G2|].
  clear - G3. assert (H : forall f (l : list seg), (length (filter f l) <= length l)%nat).
  { intros f l. induction l as [|x l IH]; cbn; [lia|]. destruct (f x); cbn; lia. }
  eapply Nat.le_trans; [apply H|exact G3].
Qed.
Lemma tail_head o : o_inp o <> [] -> exists r, tail o = Seg 4 (inp_at o) (o_inp o) (len (o_inp o)) :: r.
Proof.
  intros H. unfold tail, segments. cbv zeta beta iota. cbn [filter g_mem].
  destruct (Z.eqb_spec (len (o_inp o)) 0) as [E|E]; [|cbn [negb]; eauto]. exfalso. destruct (o_inp o); [congruence|]. unfold len in E. cbn in E. lia.
Qed.

Lemma link_some o e : link o = Some e -> fits_memory o /\ e = {| e_bytes := flat_map g_bytes (segments o); e_phdrs := headers 0 (segments o);
  e_inpdata := Some {| T.start_addr := inp_at o; T.io_size := len (o_inp o) |};
  e_outdata := Some {| T.start_addr := out_at o; T.io_size := len (o_out o) |} |}.
Proof.
  unfold link, fits_memory. destruct ((len (image (o_text o)) <=? FLASH_LEN) && (end_at o <=? RAM_ORIGIN + RAM_LEN)) eqn:B; [|discriminate].
  intros H. split; [lia|congruence].
Qed.
Lemma image_bytes ws : Forall is_byte (image ws).
Proof.
  unfold image. rewrite flat_map_concat_map. apply Forall_concat. apply Forall_map. apply Forall_forall. intros i _.
  unfold le_bytes. repeat apply Forall_cons; try apply Forall_nil; unfold is_byte, byte; apply Z.mod_pos_bound; lia.
Qed.
Lemma tail_bytes l : Forall seg_fine l -> 0 <= len (flat_map g_bytes l) <= 4096 * Z.of_nat (length l).
Proof.
  induction 1 as [|g l (_ & A & B & C & _) _ IH]; [cbn; lia|]. cbn [flat_map length]. rewrite len_app. pose proof (len_nonneg (g_bytes g)). lia.
Qed.

Section Linked.
  Variables (chk : bool) (o : objects) (e : elf).
  Hypothesis HO : objects_ok o.
  Hypothesis HL : link o = Some e.
  Lemma HF : fits_memory o.
  Proof. exact (proj1 (link_some o e HL)). Qed.
  Lemma HT : Forall seg_fine (tail o) /\ ForallOrdPairs before (tail o) /\ (length (tail o) <= 4)%nat.
  Proof. exact (tail_fine o HO HF). Qed.

  Lemma linked_bytes : e_bytes e = flat_map g_bytes (segments o).
  Proof. rewrite (proj2 (link_some o e HL)). reflexivity. Qed.
  Lemma linked_phdrs : e_phdrs e = hdr 0 (rx o) :: headers (len (image (o_text o))) (tail o).
  Proof. rewrite (proj2 (link_some o e HL)). reflexivity. Qed.
  Lemma tail_split pre g post : tail o = pre ++ g :: post ->
    len (flat_map g_bytes (tail o)) = len (flat_map g_bytes pre) + len (g_bytes g) + len (flat_map g_bytes post) /\ seg_fine g.
  Proof.
    intros E. split.
    - rewrite E, flat_map_app. cbn [flat_map]. rewrite !len_app. lia.
    - apply (proj1 (Forall_forall _ _) (proj1 HT)). rewrite E. apply in_or_app. right. left. reflexivity.
  Qed.
  Lemma total : len (e_bytes e) = len (image (o_text o)) + len (flat_map g_bytes (tail o)) /\ len (e_bytes e) <= 2 ^ 19.
  Proof.
    rewrite linked_bytes, segments_eq. cbn [flat_map rx g_bytes]. rewrite len_app. split; [reflexivity|].
    pose proof (tail_bytes _ (proj1 HT)). destruct HT as (_ & _ & H4). destruct HF as (H5 & _). unfold FLASH_LEN in H5. lia.
  Qed.
  Lemma linked_data_hdr h : In h (headers (len (image (o_text o))) (tail o)) ->
    exists pre g post, tail o = pre ++ g :: post /\ h = hdr (len (flat_map g_bytes (rx o :: pre))) g.
  Proof.
    intros H. apply headers_in in H as (pre & g & post & E1 & E2). exists pre, g, post. split; [exact E1|]. rewrite E2. f_equal.
    cbn [flat_map rx g_bytes]. rewrite len_app. reflexivity.
  Qed.
  Lemma linked_ok : elf_ok e.
  Proof.
    pose proof total as (T1 & T2). pose proof (len_nonneg (image (o_text o))) as L0. pose proof (len_nonneg (flat_map g_bytes (tail o))) as L1.
    split; [|split; [|split]].
    - rewrite linked_bytes, segments_eq. cbn [flat_map rx g_bytes]. apply Forall_app. split; [apply image_bytes|].
      rewrite flat_map_concat_map. apply Forall_concat, Forall_map. eapply Forall_impl; [|exact (proj1 HT)]. intros g Hg. apply Hg.
    - rewrite linked_phdrs. constructor.
      + unfold phdr_ok, is_u32. cbn [hdr rx p_offset p_vaddr p_filesz p_memsz g_addr g_bytes g_mem]. lia.
      + apply Forall_forall. intros h Hh. apply linked_data_hdr in Hh as (pre & g & post & E & ->).
        destruct (tail_split pre g post E) as (S & _ & S2 & S3 & S4 & _). cbn [flat_map rx g_bytes] in *. rewrite len_app.
        pose proof (len_nonneg (flat_map g_bytes pre)). pose proof (len_nonneg (flat_map g_bytes post)). pose proof (len_nonneg (g_bytes g)).
        unfold phdr_ok, is_u32. cbn [hdr p_offset p_vaddr p_filesz p_memsz]. lia.
    - intros i E. rewrite (proj2 (link_some o e HL)) in E. cbn [e_inpdata] in E. assert (i = {| T.start_addr := inp_at o; T.io_size := len (o_inp o) |}) by congruence. subst i.
      pose proof HO as (_ & _ & _ & _ & _ & Hb & _). destruct HF as (_ & HE). unfold RAM_ORIGIN, RAM_LEN in HE.
      destruct (addresses o Hb) as (I & _ & _ & _ & _ & A1 & A2 & A3 & A4 & A5 & A6 & _).
      pose proof (len_nonneg (o_inp o)). pose proof (len_nonneg (o_out o)). pose proof (len_nonneg (o_ro o)). pose proof (len_nonneg (o_data o)).
      unfold info_ok, is_u32. cbn [T.start_addr T.io_size]. lia.
    - intros i E. rewrite (proj2 (link_some o e HL)) in E. cbn [e_outdata] in E. assert (i = {| T.start_addr := out_at o; T.io_size := len (o_out o) |}) by congruence. subst i.
      pose proof HO as (_ & _ & _ & _ & _ & Hb & _). destruct HF as (_ & HE). unfold RAM_ORIGIN, RAM_LEN in HE.
      destruct (addresses o Hb) as (I & _ & _ & _ & _ & A1 & A2 & A3 & A4 & A5 & A6 & _).
      pose proof (len_nonneg (o_inp o)). pose proof (len_nonneg (o_out o)). pose proof (len_nonneg (o_ro o)). pose proof (len_nonneg (o_data o)).
      unfold info_ok, is_u32. cbn [T.start_addr T.io_size]. lia.
  Qed.
  Lemma linked_data_hdrs : data_hdrs e = headers (len (image (o_text o))) (tail o).
  Proof.
    unfold data_hdrs, loadable. rewrite linked_phdrs. cbn [filter hdr p_type p_flags rx g_flags]. change (PT_LOAD =? PT_LOAD) with true. cbn iota.
    cbn [filter]. change ((p_flags (hdr 0 (rx o)) =? PF_R) || (p_flags (hdr 0 (rx o)) =? PF_R + PF_W)) with false. cbn iota.
    destruct HT as (G & _). generalize (len (image (o_text o))). revert G. generalize (tail o). intros l G. induction G as [|g l (F & _) _ IH]; intros pos; [reflexivity|].
    cbn [headers filter p_type p_flags]. change (PT_LOAD =? PT_LOAD) with true. cbn [filter p_flags].
    replace ((g_flags g =? PF_R) || (g_flags g =? PF_R + PF_W)) with true by (unfold PF_R, PF_W; lia). f_equal. apply IH.
  Qed.
  Lemma linked_base : ram_base e = 2 ^ 18.
  Proof.
    unfold ram_base. rewrite linked_data_hdrs. destruct (tail_head o) as (r & E); [apply HO|]. rewrite E. reflexivity.
  Qed.
  Lemma linked_loads : exists ph, from_elf chk e = Some ph.
  Proof.
    apply loads_iff; [exact linked_ok|]. pose proof total as (T1 & T2). pose proof (len_nonneg (flat_map g_bytes (tail o))) as L1.
    split; [|split; [|rewrite (proj2 (link_some o e HL)); split; discriminate]].
    - exists (hdr 0 (rx o)). split; [rewrite linked_phdrs; reflexivity|]. unfold hdr, rx. cbn [p_filesz p_memsz p_vaddr p_offset g_addr g_bytes g_mem].
      split; [reflexivity|]. split; [reflexivity|]. fold (len (e_bytes e)). lia.
    - intros h Hh _. rewrite linked_data_hdrs in Hh. apply linked_data_hdr in Hh as (pre & g & post & E & ->).
      destruct (tail_split pre g post E) as (S & _ & S2 & S3 & S4 & _). unfold seg_ok. rewrite linked_base. unfold hdr, RAM_SIZE.
      cbn [p_filesz p_memsz p_vaddr p_offset flat_map rx g_bytes]. rewrite len_app. fold (len (e_bytes e)).
      pose proof (len_nonneg (flat_map g_bytes post)). lia.
  Qed.

  Variable ph : phantom.
  Hypothesis HP : from_elf chk e = Some ph.
  Lemma linked_offset : b_offset (boot_ram ph) = 2 ^ 18.
  Proof. destruct (from_elf_ok chk e ph linked_ok HP) as (_ & A & _). fold (ram_base e) in A. rewrite A. apply linked_base. Qed.
  Lemma linked_rom : b_data (boot_rom ph) = image (o_text o) /\ b_size (boot_rom ph) = len (image (o_text o)) /\ b_offset (boot_rom ph) = 0.
  Proof.
    destruct (from_elf_ok chk e ph linked_ok HP) as ((t & _ & F & _ & _ & O & S & _ & L & _ & N) & _).
    assert (t = hdr 0 (rx o)). { rewrite linked_phdrs in F. change (Some (hdr 0 (rx o)) = Some t) in F. congruence. } subst t. unfold hdr, rx in *. cbn [p_memsz g_mem p_offset] in *.
    split; [|auto]. unfold len in L. apply nth_error_ext. intros i. destruct (Nat.lt_ge_cases i (length (b_data (boot_rom ph)))) as [Hi|Hi].
    - rewrite N by exact Hi. rewrite linked_bytes, segments_eq. cbn [flat_map rx g_bytes]. rewrite nth_error_app1 by lia. reflexivity.
    - rewrite (proj2 (nth_error_None (b_data (boot_rom ph)) i)), (proj2 (nth_error_None (image (o_text o)) i)) by lia. reflexivity.
  Qed.
  Lemma linked_infos : inp_info ph = {| T.start_addr := 2 ^ 18; T.io_size := len (o_inp o) |} /\
    out_info ph = {| T.start_addr := out_at o; T.io_size := len (o_out o) |}.
  Proof.
    destruct (from_elf_ok chk e ph linked_ok HP) as (_ & _ & _ & _ & _ & _ & _ & _ & I & J & _).
    rewrite (proj2 (link_some o e HL)) in I, J. cbn [e_inpdata e_outdata] in I, J. change (inp_at o) with (2 ^ 18) in I. split; congruence.
  Qed.

  (** the RAM, segment by segment *)
  Definition seg_whole (g : seg) : Prop := len (g_bytes g) = g_mem g.
  Definition seg_covers (g : seg) (a : Z) : Prop := g_addr g <= a < g_addr g + len (g_bytes g).
  Lemma linked_ram a : 2 ^ 18 <= a < 2 ^ 18 + 4096 ->
    ram_at ph a = match source (data_hdrs e) a with Some h => file_byte e h a | None => Some 0 end.
  Proof.
    intros Ha. destruct (from_elf_ok chk e ph linked_ok HP) as (_ & _ & _ & _ & C & _ & _ & D & _).
    unfold ram_at. rewrite linked_offset in *. destruct (Z.leb_spec (2 ^ 18) a); [|lia]. rewrite D.
    replace (2 ^ 18 + Z.of_nat (Z.to_nat (a - 2 ^ 18))) with a by lia.
    destruct (source _ _); [reflexivity|]. rewrite nth_error_nth' with (d := 0); [|rewrite repeat_length; unfold RAM_SIZE; lia]. f_equal. apply nth_repeat.
  Qed.
  Lemma ram_seg g a : In g (tail o) -> seg_whole g -> seg_covers g a -> ram_at ph a = nth_error (g_bytes g) (Z.to_nat (a - g_addr g)).
  Proof.
    intros Hg HW HC. unfold seg_whole, seg_covers in *.
    pose proof (proj1 (Forall_forall _ _) (proj1 HT) g Hg) as (_ & G2 & G3 & G4 & _). rewrite linked_ram by lia.
    unfold source. rewrite linked_data_hdrs. destruct (find _ (rev _)) as [h|] eqn:F.
    - apply find_some in F as [F1 F2]. apply in_rev in F1. apply linked_data_hdr in F1 as (pre & g' & post & E & ->).
      apply andb_true_iff in F2 as [F2 F3]. unfold copied, in_fileb, hdr in F2, F3. cbn [p_memsz p_filesz p_vaddr] in F2, F3.
      assert (Hg' : In g' (tail o)) by (rewrite E; apply in_or_app; right; left; reflexivity).
      assert (g' = g).
      { pose proof (proj1 (Forall_forall _ _) (proj1 HT) g' Hg') as (_ & G2' & G3' & G4' & _).
        destruct (ForallOrdPairs_In (proj1 (proj2 HT)) g' g Hg' Hg) as [?|[B|B]]; [assumption|exfalso; unfold before in B; lia..]. }
      subst g'. apply file_byte_seg with (l := segments o) (post := post); [apply linked_bytes|rewrite segments_eq, E; reflexivity|lia].
    - exfalso. apply in_split in Hg as (pre & post & E).
      assert (Hi : In (hdr (len (image (o_text o)) + len (flat_map g_bytes pre)) g) (headers (len (image (o_text o))) (tail o))).
      { apply headers_in. exists pre, g, post. auto. }
      pose proof (find_none _ _ F _ (proj1 (in_rev _ _) Hi)) as N. cbv beta in N. unfold copied, in_fileb, hdr in N. cbn [p_memsz p_filesz p_vaddr] in N. lia.
  Qed.
  Lemma ram_none a : 2 ^ 18 <= a < 2 ^ 18 + 4096 -> (forall g, In g (tail o) -> seg_whole g -> ~ seg_covers g a) -> ram_at ph a = Some 0.
  Proof.
    intros Ha HN. rewrite linked_ram by exact Ha. unfold source. rewrite linked_data_hdrs. destruct (find _ (rev _)) as [h|] eqn:F; [exfalso|reflexivity].
    apply find_some in F as [F1 F2]. apply in_rev in F1. apply linked_data_hdr in F1 as (pre & g' & post & E & ->).
    apply andb_true_iff in F2 as [F2 F3]. unfold copied, in_fileb, hdr in F2, F3. cbn [p_memsz p_filesz p_vaddr] in F2, F3.
    apply (HN g'); [rewrite E; apply in_or_app; right; left; reflexivity|unfold seg_whole; lia|unfold seg_covers; lia].
  Qed.

  (** the RAM, section by section *)
  Definition inp_seg : seg := Seg 4 (inp_at o) (o_inp o) (len (o_inp o)).
  Definition out_seg : seg := Seg 6 (out_at o) (o_out o) (len (o_out o)).
  Definition ro_bytes : list Z := o_ro o ++ gap (ro_at o + len (o_ro o)) (ro_end o).
  Definition ro_seg : seg := Seg 4 (ro_at o) ro_bytes (len ro_bytes).
  Definition data_first : Z := match o_data o with [] => bss_at o | _ => data_at o end.
  Definition data_seg : seg :=
    Seg 6 data_first (o_data o) ((if o_bss o =? 0 then data_first + len (o_data o) else end_at o) - data_first).
  Definition rw_bytes : list Z :=
    match o_data o with [] => o_out o | _ => o_out o ++ gap (out_at o + len (o_out o)) (data_at o) ++ o_data o end.
  Definition rw_seg : seg := Seg 6 (out_at o) rw_bytes ((if o_bss o =? 0 then out_at o + len rw_bytes else end_at o) - out_at o).
  Lemma tail_in g : In g (tail o) <-> g_mem g <> 0 /\
    (g = inp_seg \/ o_ro o = [] /\ g = rw_seg \/ o_ro o <> [] /\ (g = out_seg \/ g = ro_seg \/ g = data_seg)).
  Proof.
    unfold tail, segments. cbv zeta beta iota. rewrite filter_In, negb_true_iff, Z.eqb_neq. fold ro_bytes. fold data_first. fold rw_bytes.
    fold inp_seg. unfold rw_seg, out_seg, ro_seg, data_seg, inp_seg. destruct (o_ro o) as [|r0 ro].
    - cbn [In]. split.
      + intros ([E|[E|[]]] & H); split; auto.
      + intros (H & [E|[(_ & E)|(C & _)]]); [split; auto..|congruence].
    - cbn [In]. split.
      + intros ([E|[E|[E|[E|[]]]]] & H); (split; [exact H|]); [left; auto|right; right; (split; [discriminate|auto])..].
      + intros (H & [E|[(C & _)|(_ & [E|[E|E]])]]); [split; auto 6|discriminate|split; auto 6..].
  Qed.
  Lemma facts : inp_at o = 2 ^ 18 /\ inp_at o + len (o_inp o) <= out_at o /\ out_at o + len (o_out o) <= ro_at o /\
    ro_at o + len (o_ro o) <= ro_end o /\ ro_end o = data_at o /\ data_at o + len (o_data o) <= bss_at o /\
    end_at o = bss_at o + o_bss o /\ end_at o <= 2 ^ 18 + 4096 /\ 0 <= o_bss o /\
    (o_ro o = [] -> ro_at o = data_at o) /\ (o_data o = [] -> bss_at o = data_at o) /\
    0 <= len (o_inp o) /\ 0 <= len (o_out o) /\ 0 <= len (o_ro o) /\ 0 <= len (o_data o).
  Proof.
    pose proof HO as (_ & _ & _ & _ & _ & Hb & _). destruct HF as (_ & HE).
    destruct (addresses o Hb) as (I & _ & _ & _ & _ & A1 & A2 & A3 & A4 & A5 & A6 & A7 & A8).
    repeat match goal with |- _ /\ _ => split end; auto using len_nonneg.
  Qed.
  Lemma rw_len : o_ro o = [] -> len rw_bytes = if match o_data o with [] => true | _ => false end then len (o_out o) else data_at o + len (o_data o) - out_at o.
  Proof.
    intros E. destruct facts as (A0 & A1 & A2 & A3 & A4 & A5 & A6 & A7 & A8 & A9 & _). specialize (A9 E).
    unfold rw_bytes. destruct (o_data o) eqn:ED; [reflexivity|]. rewrite <- ED in *. rewrite !len_app, gap_len by lia. lia.
  Qed.
  Lemma data_first_eq : (o_data o <> [] -> data_first = data_at o) /\ data_at o <= data_first /\ data_first + len (o_data o) <= bss_at o.
  Proof.
    destruct facts as (_ & _ & _ & _ & _ & A5 & _ & _ & _ & _ & A10 & _). unfold data_first. destruct (o_data o) eqn:ED.
    - specialize (A10 eq_refl). unfold len in *. cbn in *. split; [congruence|lia].
    - split; [auto|lia].
  Qed.
  Lemma rw_not_whole : o_bss o <> 0 -> o_ro o = [] -> ~ seg_whole rw_seg.
  Proof.
    intros Hb E. unfold seg_whole, rw_seg. cbn [g_bytes g_mem]. rewrite (rw_len E).
    destruct facts as (A0 & A1 & A2 & A3 & A4 & A5 & A6 & A7 & A8 & A9 & A10 & L). specialize (A9 E).
    destruct (Z.eqb_spec (o_bss o) 0); [contradiction|]. destruct (o_data o); unfold len in *; cbn [length Z.of_nat] in *; lia.
  Qed.
  Lemma data_not_whole : o_bss o <> 0 -> ~ seg_whole data_seg.
  Proof.
    intros Hb. unfold seg_whole, data_seg. cbn [g_bytes g_mem]. destruct facts as (A0 & A1 & A2 & A3 & A4 & A5 & A6 & A7 & A8 & _).
    destruct data_first_eq as (_ & D1 & D2). destruct (Z.eqb_spec (o_bss o) 0); [contradiction|]. lia.
  Qed.
  Lemma ro_len : len ro_bytes = ro_end o - ro_at o.
  Proof. destruct facts as (A0 & A1 & A2 & A3 & _). unfold ro_bytes. rewrite len_app, gap_len; lia. Qed.
  Lemma gap_nth a b i : (i < Z.to_nat (b - a))%nat -> nth_error (gap a b) i = Some 0.
  Proof. intros H. unfold gap. rewrite nth_error_nth' with (d := 0); [|rewrite repeat_length; lia]. f_equal. apply nth_repeat. Qed.

  Lemma inp_byte a : inp_at o <= a < inp_at o + len (o_inp o) -> ram_at ph a = nth_error (o_inp o) (Z.to_nat (a - inp_at o)).
  Proof.
    intros Ha. apply (ram_seg inp_seg); [|reflexivity|exact Ha]. apply tail_in. unfold inp_seg at 1. cbn [g_mem]. split; [lia|auto].
  Qed.
  Lemma ro_byte a : ro_at o <= a < ro_at o + len (o_ro o) -> ram_at ph a = nth_error (o_ro o) (Z.to_nat (a - ro_at o)).
  Proof.
    intros Ha. assert (N : o_ro o <> []). { intros E. rewrite E in Ha. unfold len in Ha. cbn in Ha. lia. }
    pose proof ro_len as RL. destruct facts as (A0 & A1 & A2 & A3 & _).
    rewrite (ram_seg ro_seg); [|apply tail_in; split; [unfold ro_seg; cbn [g_mem]; lia|auto 6]|reflexivity|unfold seg_covers, ro_seg; cbn [g_addr g_bytes]; lia].
    unfold ro_seg, ro_bytes. cbn [g_bytes g_addr]. apply nth_error_app1. unfold len in *. lia.
  Qed.
  Lemma out_byte a : out_at o <= a < out_at o + len (o_out o) ->
    (o_bss o = 0 \/ o_ro o <> [] -> ram_at ph a = nth_error (o_out o) (Z.to_nat (a - out_at o))) /\
    (o_bss o <> 0 /\ o_ro o = [] -> ram_at ph a = Some 0).
  Proof.
    intros Ha. destruct facts as (A0 & A1 & A2 & A3 & A4 & A5 & A6 & A7 & A8 & A9 & A10 & L1 & L2 & L3 & L4). split.
    - destruct (o_ro o) as [|r0 ro] eqn:ER.
      + intros [Hb|C]; [|congruence]. pose proof (rw_len ER) as RL. specialize (A9 eq_refl).
        assert (RL' : len (o_out o) <= len rw_bytes) by (rewrite RL; destruct (o_data o); lia).
        rewrite (ram_seg rw_seg).
        * unfold rw_seg, rw_bytes. cbn [g_bytes g_addr]. destruct (o_data o); [reflexivity|]. apply nth_error_app1. unfold len in *. lia.
        * apply tail_in. split; [unfold rw_seg; cbn [g_mem]; rewrite Hb, Z.eqb_refl; lia|auto].
        * unfold seg_whole, rw_seg. cbn [g_bytes g_mem]. rewrite Hb, Z.eqb_refl. lia.
        * unfold seg_covers, rw_seg. cbn [g_addr g_bytes]. lia.
      + intros _. apply (ram_seg out_seg); [|reflexivity|exact Ha]. apply tail_in. split; [unfold out_seg; cbn [g_mem]; lia|]. right. right. split; [rewrite ER; discriminate|auto].
    - intros (Hb & ER). specialize (A9 ER). apply ram_none; [lia|]. intros g Hg HW HC. apply tail_in in Hg as (_ & [->|[(_ & ->)|(C & _)]]); [| |congruence].
      + unfold seg_covers, inp_seg in HC. cbn [g_addr g_bytes] in HC. lia.
      + exact (rw_not_whole Hb ER HW).
  Qed.
  Lemma data_byte a : data_at o <= a < data_at o + len (o_data o) ->
    (o_bss o = 0 -> ram_at ph a = nth_error (o_data o) (Z.to_nat (a - data_at o))) /\ (o_bss o <> 0 -> ram_at ph a = Some 0).
  Proof.
    intros Ha. destruct facts as (A0 & A1 & A2 & A3 & A4 & A5 & A6 & A7 & A8 & A9 & A10 & L1 & L2 & L3 & L4).
    assert (N : o_data o <> []). { intros E. rewrite E in Ha. unfold len in Ha. cbn in Ha. lia. }
    destruct data_first_eq as (DF & D1 & D2). specialize (DF N). split.
    - intros Hb. destruct (o_ro o) as [|r0 ro] eqn:ER.
      + pose proof (rw_len ER) as RL. specialize (A9 eq_refl).
        assert (RL' : len rw_bytes = data_at o + len (o_data o) - out_at o) by (rewrite RL; destruct (o_data o); [congruence|reflexivity]).
        rewrite (ram_seg rw_seg).
        * unfold rw_seg, rw_bytes. cbn [g_bytes g_addr]. destruct (o_data o) as [|d0 da] eqn:ED; [congruence|]. rewrite <- ED in *.
          pose proof (gap_len (out_at o + len (o_out o)) (data_at o) ltac:(lia)) as GL. unfold len in *.
          rewrite nth_error_app2 by lia. rewrite nth_error_app2 by lia. f_equal. lia.
        * apply tail_in. split; [unfold rw_seg; cbn [g_mem]; rewrite Hb, Z.eqb_refl; lia|auto].
        * unfold seg_whole, rw_seg. cbn [g_bytes g_mem]. rewrite Hb, Z.eqb_refl. lia.
        * unfold seg_covers, rw_seg. cbn [g_addr g_bytes]. lia.
      + rewrite <- DF. apply (ram_seg data_seg).
        * apply tail_in. split; [unfold data_seg; cbn [g_mem]; rewrite Hb, Z.eqb_refl; lia|]. right. right. split; [rewrite ER; discriminate|auto].
        * unfold seg_whole, data_seg. cbn [g_bytes g_mem]. rewrite Hb, Z.eqb_refl. lia.
        * unfold seg_covers, data_seg. cbn [g_addr g_bytes]. lia.
    - intros Hb. apply ram_none; [lia|]. intros g Hg HW HC. pose proof ro_len as RL.
      apply tail_in in Hg as (_ & [->|[(ER & ->)|(_ & [->|[->| ->]])]]).
      + unfold seg_covers, inp_seg in HC. cbn [g_addr g_bytes] in HC. lia.
      + exact (rw_not_whole Hb ER HW).
      + unfold seg_covers, out_seg in HC. cbn [g_addr g_bytes] in HC. lia.
      + unfold seg_covers, ro_seg in HC. cbn [g_addr g_bytes] in HC. lia.
      + exact (data_not_whole Hb HW).
  Qed.
  Lemma other_byte a : 2 ^ 18 <= a < 2 ^ 18 + 4096 ->
    ~ (inp_at o <= a < inp_at o + len (o_inp o)) -> ~ (out_at o <= a < out_at o + len (o_out o)) ->
    ~ (ro_at o <= a < ro_at o + len (o_ro o)) -> ~ (data_at o <= a < data_at o + len (o_data o)) -> ram_at ph a = Some 0.
  Proof.
    intros Ha N1 N2 N3 N4. destruct facts as (A0 & A1 & A2 & A3 & A4 & A5 & A6 & A7 & A8 & A9 & A10 & L1 & L2 & L3 & L4).
    destruct data_first_eq as (DF & D1 & D2). pose proof ro_len as RL.
    destruct (o_ro o) as [|r0 ro] eqn:ER.
    - specialize (A9 eq_refl). pose proof (rw_len ER) as RL'.
      destruct (Z.eq_dec (o_bss o) 0) as [Hb|Hb].
      2:{ apply ram_none; [lia|]. intros g Hg HW HC. apply tail_in in Hg as (_ & [->|[(_ & ->)|(C & _)]]); [|exact (rw_not_whole Hb ER HW)|congruence].
          unfold seg_covers, inp_seg in HC. cbn [g_addr g_bytes] in HC. lia. }
      destruct (o_data o) as [|d0 da] eqn:ED.
      + apply ram_none; [lia|]. intros g Hg HW HC. apply tail_in in Hg as (_ & [->|[(_ & ->)|(C & _)]]); [| |congruence].
        * unfold seg_covers, inp_seg in HC. cbn [g_addr g_bytes] in HC. lia.
        * unfold seg_covers, rw_seg in HC. cbn [g_addr g_bytes] in HC. lia.
      + rewrite <- ED in *. destruct (Z_lt_dec a (data_at o)) as [Hd|Hd]; [destruct (Z_le_dec (out_at o + len (o_out o)) a) as [Ho|Ho]|].
        * rewrite (ram_seg rw_seg).
          -- unfold rw_seg, rw_bytes. cbn [g_bytes g_addr]. rewrite ED. rewrite <- ED.
             pose proof (gap_len (out_at o + len (o_out o)) (data_at o) ltac:(lia)) as GL. unfold len in *.
             rewrite nth_error_app2 by lia. rewrite nth_error_app1 by lia. apply gap_nth. lia.
          -- apply tail_in. split; [unfold rw_seg; cbn [g_mem]; rewrite Hb, Z.eqb_refl; lia|auto].
          -- unfold seg_whole, rw_seg. cbn [g_bytes g_mem]. rewrite Hb, Z.eqb_refl. lia.
          -- unfold seg_covers, rw_seg. cbn [g_addr g_bytes]. lia.
        * apply ram_none; [lia|]. intros g Hg HW HC. apply tail_in in Hg as (_ & [->|[(_ & ->)|(C & _)]]); [| |congruence];
            unfold seg_covers, inp_seg, rw_seg in HC; cbn [g_addr g_bytes] in HC; lia.
        * apply ram_none; [lia|]. intros g Hg HW HC. apply tail_in in Hg as (_ & [->|[(_ & ->)|(C & _)]]); [| |congruence];
            unfold seg_covers, inp_seg, rw_seg in HC; cbn [g_addr g_bytes] in HC; lia.
    - assert (NR : o_ro o <> []) by (rewrite ER; discriminate). rewrite <- ER in *.
      destruct (Z_lt_dec a (ro_end o)) as [Hd|Hd]; [destruct (Z_le_dec (ro_at o + len (o_ro o)) a) as [Ho|Ho]|].
      + rewrite (ram_seg ro_seg).
        * unfold ro_seg, ro_bytes. cbn [g_bytes g_addr]. pose proof (gap_len (ro_at o + len (o_ro o)) (ro_end o) ltac:(lia)) as GL. unfold len in *.
          rewrite nth_error_app2 by lia. apply gap_nth. lia.
        * apply tail_in. split; [unfold ro_seg; cbn [g_mem]; lia|auto 6].
        * reflexivity.
        * unfold seg_covers, ro_seg. cbn [g_addr g_bytes]. lia.
      + apply ram_none; [lia|]. intros g Hg HW HC. apply tail_in in Hg as (_ & [->|[(C & _)|(_ & [->|[->| ->]])]]); [|congruence|..];
          unfold seg_covers, inp_seg, out_seg, ro_seg, data_seg in HC; cbn [g_addr g_bytes] in HC; lia.
      + apply ram_none; [lia|]. intros g Hg HW HC. apply tail_in in Hg as (_ & [->|[(C & _)|(_ & [->|[->| ->]])]]); [|congruence|..];
          unfold seg_covers, inp_seg, out_seg, ro_seg, data_seg in HC; cbn [g_addr g_bytes] in HC; try lia.
        destruct (o_data o) as [|d0 da] eqn:ED; [unfold len in HC; cbn in HC; lia|]. rewrite <- ED in *. rewrite DF in HC by congruence. lia.
  Qed.
End Linked.
