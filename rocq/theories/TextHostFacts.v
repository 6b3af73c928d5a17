(** * The translated host side equals its model (proofs) *)
Require Import ZArith List Bool Lia.
From Verif Require Import Rust RustIter RustStr RustLib RustEng RustHost TextFacts TextTestFacts TextTestExec.
Require Verif.Word Verif.EncVM Verif.TestVM Verif.Loader Verif.Host Verif.HostSpec Verif.PropHost Verif.TextHost Verif.TextTest.
Module H := Verif.TextHost.
Module Ld := Verif.Loader.
Import ListNotations.
Open Scope Z_scope.
Local Notation chk := overflow_checks.

(** ** Operators *)
Lemma filter_pure : forall {A} (f : A -> bool) (g : A -> option bool) l, (forall x, g x = Some (f x)) -> RustStr.filter l g = Some (List.filter f l).
Proof. intros A f g l E. induction l as [|x l IH]; [reflexivity|]. cbn. rewrite E, IH. destruct (f x); reflexivity. Qed.
Lemma find_pure : forall {A} (f : A -> bool) (g : A -> option bool) l, (forall x, g x = Some (f x)) -> RustIter.find l g = Some (List.find f l).
Proof. intros A f g l E. induction l as [|x l IH]; [reflexivity|]. cbn. rewrite E, IH. destruct (f x); reflexivity. Qed.
Lemma filter_map : forall {A B} (h : A -> B) f l, List.filter f (map h l) = map h (List.filter (fun x => f (h x)) l).
Proof. intros A B h f l. induction l as [|x l IH]; [reflexivity|]. cbn. rewrite IH. destruct (f (h x)); reflexivity. Qed.
Lemma find_map : forall {A B} (h : A -> B) f l, List.find f (map h l) = option_map h (List.find (fun x => f (h x)) l).
Proof. intros A B h f l. induction l as [|x l IH]; [reflexivity|]. cbn. destruct (f (h x)); [reflexivity|exact IH]. Qed.
Lemma add64 : forall t p a b, card t = b64 -> is_signed t = false -> usize_val a -> usize_val b ->
  add p (@Int t a) (Int b) = option_map Int (Ld.uadd (chk p) a b).
Proof.
  intros t p a b C S A B. unfold usize_val in *. unfold add, checked, fits, Ld.uadd, wrap, Word.u64. rewrite S.
  assert (LE : least t = 0) by (unfold least; rewrite ?S; destruct t; try discriminate; reflexivity).
  assert (LA : largest t = b64 - 1) by (destruct t; try discriminate; reflexivity).
  rewrite C, LE, LA. cbn [val]. destruct (Z.leb_spec 0 (a + b)); [|lia]. cbn [andb].
  destruct (Z.leb_spec (a + b) (b64 - 1)), (Z.ltb_spec (a + b) b64); try lia; [reflexivity|]. destruct (chk p); reflexivity.
Qed.
Lemma uadd_val : forall c a b z, usize_val a -> usize_val b -> Ld.uadd c a b = Some z -> usize_val z.
Proof.
  unfold usize_val, Ld.uadd, Word.u64. intros c a b z A B H. destruct (Z.ltb_spec (a + b) b64); [injection H as <-; lia|].
  destruct c; [discriminate|]. injection H as <-. apply Z.mod_pos_bound. lia.
Qed.
Lemma slice_int : forall (l : list Z) a b,
  RustStr.slice (map (@Int U8) l) (Int a) (Int b) = option_map (map Int) (Ld.slice l a b).
Proof.
  intros. unfold RustStr.slice, Ld.slice. cbn [val]. rewrite map_length. destruct (_ && _); [|reflexivity].
  cbn [option_map]. now rewrite skipn_map, firstn_map.
Qed.
Lemma copy_int : forall (l m : list Z) a b,
  copy_range (map (@Int U8) l) (Int a) (Int b) (map Int m) = option_map (map Int) (Ld.copy_into l a b m).
Proof.
  intros. unfold copy_range, Ld.copy_into. cbn [val]. rewrite !map_length. destruct (_ && _ && _); [|reflexivity].
  cbn [option_map]. now rewrite !map_app, skipn_map, firstn_map.
Qed.
Lemma range_int : forall p a n o {A} (k : int USize -> int USize -> option A), usize_val a -> usize_val n -> usize_val o ->
  (lo <- sub p (@Int USize a) (Int o) ;; e <- add p (@Int USize a) (Int n) ;; hi <- sub p e (Int o) ;; k lo hi) =
  match Ld.range_from (chk p) a n o with Some (lo, hi) => k (Int lo) (Int hi) | None => None end.
Proof.
  intros p a n o A k HA HN HO. unfold Ld.range_from. rewrite usub_eq by assumption.
  destruct (V.usub (chk p) a o) as [lo|]; [cbn [option_map]|reflexivity].
  rewrite add64 by auto. destruct (Ld.uadd (chk p) a n) as [e|] eqn:E; [cbn [option_map]|reflexivity].
  rewrite usub_eq by eauto using uadd_val. destruct (V.usub (chk p) e o); reflexivity.
Qed.

(** ** The image *)
Definition hdr_of (h : ProgramHeader) : Ld.phdr :=
  Ld.Phdr (val (ProgramHeader_p_type h)) (val (ProgramHeader_p_flags h)) (val (ProgramHeader_p_offset h))
    (val (ProgramHeader_p_vaddr h)) (val (ProgramHeader_p_filesz h)) (val (ProgramHeader_p_memsz h)).
Definition sec_of (s : option (option SectionHeader)) : option V.io_info :=
  match s with
  | Some (Some s) => Some {| V.start_addr := val (SectionHeader_sh_addr s); V.io_size := val (SectionHeader_sh_size s) |}
  | _ => None
  end.
Definition boot_text (b : Ld.boot_memory) : X.BootMemory := boot_of (Ld.b_offset b) (Ld.b_size b) (Ld.b_data b).
Definition phantom_of (bytes : list Z) (ph : Ld.phantom) : H.Phantom :=
  H.mk_Phantom (boot_text (Ld.boot_rom ph)) (boot_text (Ld.boot_ram ph)) (out_of (Ld.out_info ph)) (in_of (Ld.inp_info ph)) (Some (map Int bytes)).
(** the numbers of a header are of their types *)
Definition hdr_typed (h : ProgramHeader) : Prop :=
  usize_val (val (ProgramHeader_p_offset h)) /\ usize_val (val (ProgramHeader_p_vaddr h)) /\ usize_val (val (ProgramHeader_p_memsz h)).

Lemma int_val : forall {t} (a : int t), Int (val a) = a.
Proof. intros t []. reflexivity. Qed.
Lemma cast64 : forall (a : int U64), cast USize a = Int (val a).
Proof. reflexivity. Qed.
Lemma gt_lt : forall {t} (a b : int t), gt a b = (val b <? val a).
Proof. intros. unfold gt. apply Z.gtb_ltb. Qed.
Lemma copy_none : forall c bs o l, fold_left (Ld.copy_segment c bs o) l None = None.
Proof. induction l; cbn; auto. Qed.

Section Image.
Context {L : library} {E : engine L} (Hs : host L E).
Notation inp_name := [46; 105; 110; 112; 100; 97; 116; 97].
Notation out_name := [46; 111; 117; 116; 100; 97; 116; 97].
(** what the parser of the container says *)
Definition elf_of (x : ElfBytes Hs) (hs : list ProgramHeader) (bytes : list Z) : Ld.elf :=
  {| Ld.e_bytes := bytes; Ld.e_phdrs := map hdr_of hs;
     Ld.e_inpdata := sec_of (ElfBytes_section_header_by_name Hs x (str inp_name));
     Ld.e_outdata := sec_of (ElfBytes_section_header_by_name Hs x (str out_name)) |}.

Lemma from_elf_text : forall p bytes,
  (forall x hs, ElfBytes_minimal_parse Hs (map Int bytes) = Some x -> ElfBytes_segments Hs x = Some hs -> Forall hdr_typed hs) ->
  H.Phantom_from_elf L E Hs p (map Int bytes) =
  (x <- ElfBytes_minimal_parse Hs (map Int bytes) ;;
   hs <- ElfBytes_segments Hs x ;;
   option_map (phantom_of bytes) (Ld.from_elf (chk p) (elf_of x hs bytes))).
Proof.
  intros p bytes TY. unfold H.Phantom_from_elf.
  destruct (ElfBytes_minimal_parse Hs (map Int bytes)) as [x|] eqn:EX; [|reflexivity].
  destruct (ElfBytes_segments Hs x) as [hs|] eqn:EH; [|reflexivity]. specialize (TY x hs eq_refl EH).
  rewrite (filter_pure (fun h => val (ProgramHeader_p_type h) =? 1)) by reflexivity.
  assert (LO : Ld.loadable (elf_of x hs bytes) = map hdr_of (List.filter (fun h => val (ProgramHeader_p_type h) =? 1) hs)).
  { unfold Ld.loadable, elf_of. cbn [Ld.e_phdrs]. apply filter_map. }
  set (lo := List.filter (fun h => val (ProgramHeader_p_type h) =? 1) hs) in *.
  assert (TL : Forall hdr_typed lo).
  { apply Forall_forall. intros h I. apply filter_In in I. exact (proj1 (Forall_forall _ _) TY h (proj1 I)). }
  cbv zeta. rewrite (find_pure (fun h => val (ProgramHeader_p_flags h) =? 5)) by reflexivity.
  unfold Ld.from_elf. unfold Ld.data_hdrs. rewrite LO, find_map, filter_map.
  change (fun x0 : ProgramHeader => Ld.p_flags (hdr_of x0) =? Ld.PF_R + Ld.PF_X) with (fun h : ProgramHeader => val (ProgramHeader_p_flags h) =? 5).
  destruct (List.find _ lo) as [txt|] eqn:FT; [cbn [option_map]|reflexivity].
  apply find_some in FT. pose proof (proj1 (Forall_forall _ _) TL txt (proj1 FT)) as (T1 & T2 & T3).
  change (eq (ProgramHeader_p_filesz txt) (ProgramHeader_p_memsz txt)) with (Ld.p_filesz (hdr_of txt) =? Ld.p_memsz (hdr_of txt)).
  destruct (Ld.p_filesz (hdr_of txt) =? Ld.p_memsz (hdr_of txt)); [|reflexivity].
  change (eq (ProgramHeader_p_vaddr txt) (lit 0)) with (Ld.p_vaddr (hdr_of txt) =? 0).
  destruct (Ld.p_vaddr (hdr_of txt) =? 0); [|reflexivity].
  rewrite <- (int_val (ProgramHeader_p_offset txt)), <- (int_val (ProgramHeader_p_memsz txt)), add64 by auto. cbn [val].
  change (Ld.p_offset (hdr_of txt)) with (val (ProgramHeader_p_offset txt)). change (Ld.p_memsz (hdr_of txt)) with (val (ProgramHeader_p_memsz txt)).
  destruct (Ld.uadd (chk p) _ _) as [fin|]; [cbn [option_map]|reflexivity].
  rewrite !cast64. cbn [val]. rewrite slice_int. change (Ld.e_bytes (elf_of x hs bytes)) with bytes.
  destruct (Ld.slice bytes _ fin) as [code|]; [cbn [option_map]|reflexivity].
  rewrite boot_new. 
  rewrite (filter_pure (fun h => (val (ProgramHeader_p_flags h) =? 4) || (val (ProgramHeader_p_flags h) =? 6))).
  2: { intro h. unfold eq, abi_PF_R. cbn [val lit]. destruct (_ =? 4); reflexivity. }
  change (fun x0 : ProgramHeader => (Ld.p_flags (hdr_of x0) =? Ld.PF_R) || (Ld.p_flags (hdr_of x0) =? Ld.PF_R + Ld.PF_W))
    with (fun h : ProgramHeader => (val (ProgramHeader_p_flags h) =? 4) || (val (ProgramHeader_p_flags h) =? 6)).
  set (hd := List.filter _ lo).
  assert (TH : Forall hdr_typed hd).
  { apply Forall_forall. intros h I. apply filter_In in I. exact (proj1 (Forall_forall _ _) TL h (proj1 I)). }
  clearbody hd.
  assert (LP : forall off l d, usize_val off -> Forall hdr_typed l ->
    for_each l (fun (ph : ProgramHeader) (boot_ram_data : list (int U8)) => if gt (ProgramHeader_p_memsz ph) (lit 0) && eq (ProgramHeader_p_filesz ph) (ProgramHeader_p_memsz ph)
        then t20 <- sub p (cast USize (ProgramHeader_p_vaddr ph)) (Int off) ;;
          t21 <- add p (cast USize (ProgramHeader_p_vaddr ph)) (cast USize (ProgramHeader_p_memsz ph)) ;;
          t22 <- sub p t21 (Int off) ;;
          t17 <- add p (ProgramHeader_p_memsz ph) (ProgramHeader_p_offset ph) ;;
          t18 <- RustStr.slice (map Int bytes) (cast USize (ProgramHeader_p_offset ph)) (cast USize t17) ;;
          t19 <- copy_range boot_ram_data t20 t22 t18 ;;
          Some t19
        else Some boot_ram_data) (map Int d)
    = option_map (map Int) (fold_left (Ld.copy_segment (chk p) bytes off) (map hdr_of l) (Some d))).
  { intros off l. induction l as [|h l IH]; intros d O F; [reflexivity|]. apply Forall_cons_iff in F as [(F1 & F2 & F3) F].
    cbn [for_each map fold_left]. unfold Ld.copy_segment at 2.
    rewrite gt_lt. change (eq (ProgramHeader_p_filesz h) (ProgramHeader_p_memsz h)) with (Ld.p_filesz (hdr_of h) =? Ld.p_memsz (hdr_of h)).
    change (val (lit 0 : int U64) <? val (ProgramHeader_p_memsz h)) with (0 <? Ld.p_memsz (hdr_of h)).
    destruct (_ && _); [|exact (IH d O F)].
    rewrite !cast64. rewrite range_int by assumption.
    change (Ld.p_vaddr (hdr_of h)) with (val (ProgramHeader_p_vaddr h)). change (Ld.p_offset (hdr_of h)) with (val (ProgramHeader_p_offset h)).
    change (Ld.p_memsz (hdr_of h)) with (val (ProgramHeader_p_memsz h)).
    destruct (Ld.range_from _ _ _ _) as [[a b]|]; [|rewrite copy_none; reflexivity].
    rewrite <- (int_val (ProgramHeader_p_offset h)), <- (int_val (ProgramHeader_p_memsz h)), add64 by auto. cbn [val].
    destruct (Ld.uadd (chk p) _ _) as [e|]; [cbn [option_map]|rewrite copy_none; reflexivity].
    rewrite cast64. cbn [val]. rewrite slice_int. destruct (Ld.slice bytes _ e) as [s|]; [cbn [option_map]|rewrite copy_none; reflexivity].
    rewrite copy_int. destruct (Ld.copy_into d a b s) as [d'|]; [exact (IH d' O F)|rewrite copy_none; reflexivity]. }
  assert (Z0 : filled (lit (t := U8) 0) H.host_RAM_SIZE = map Int (repeat 0 (Z.to_nat Ld.RAM_SIZE))).
  { unfold filled. rewrite map_repeat. reflexivity. }
  rewrite Z0.
  assert (RAM : forall {A} (k : int USize * list (int U8) -> option A),
    match (if gt (len hd) (lit 0)
      then t15 <- index hd (lit 0) ;;
        boot_ram_data <- for_each hd (fun (ph : ProgramHeader) (boot_ram_data : list (int U8)) => if gt (ProgramHeader_p_memsz ph) (lit 0) && eq (ProgramHeader_p_filesz ph) (ProgramHeader_p_memsz ph)
        then t20 <- sub p (cast USize (ProgramHeader_p_vaddr ph)) (cast USize (ProgramHeader_p_vaddr t15)) ;;
          t21 <- add p (cast USize (ProgramHeader_p_vaddr ph)) (cast USize (ProgramHeader_p_memsz ph)) ;;
          t22 <- sub p t21 (cast USize (ProgramHeader_p_vaddr t15)) ;;
          t17 <- add p (ProgramHeader_p_memsz ph) (ProgramHeader_p_offset ph) ;;
          t18 <- RustStr.slice (map Int bytes) (cast USize (ProgramHeader_p_offset ph)) (cast USize t17) ;;
          t19 <- copy_range boot_ram_data t20 t22 t18 ;;
          Some t19
        else Some boot_ram_data) (map Int (repeat 0 (Z.to_nat Ld.RAM_SIZE))) ;;
        Some (cast USize (ProgramHeader_p_vaddr t15), boot_ram_data)
      else Some (lit 0, map Int (repeat 0 (Z.to_nat Ld.RAM_SIZE)))) with Some r => k r | None => None end =
    let off := match map hdr_of hd with [] => 0 | h :: _ => Ld.p_vaddr h end in
    match fold_left (Ld.copy_segment (chk p) bytes off) (map hdr_of hd) (Some (repeat 0 (Z.to_nat Ld.RAM_SIZE))) with
    | Some d => k (Int off, map Int d) | None => None end).
  { intros A k. destruct hd as [|h l]; [reflexivity|].
    assert (G : gt (len (h :: l)) (lit 0) = true).
    { rewrite gt_lt. unfold len, lit, val. cbn [length]. apply Z.ltb_lt. lia. }
    rewrite G. change (index (h :: l) (lit 0)) with (Some h). cbv iota beta.
    rewrite cast64. rewrite LP; [|apply (Forall_inv TH)|exact TH]. cbn [map]. cbv zeta.
    change (Ld.p_vaddr (hdr_of h)) with (val (ProgramHeader_p_vaddr h)).
    destruct (fold_left _ _ _); reflexivity. }
  etransitivity; [exact (RAM _ (fun '(ram_offset, boot_ram_data) => _))|].
  cbv zeta. set (off := match map hdr_of hd with [] => 0 | h :: _ => Ld.p_vaddr h end).
  destruct (fold_left _ _ _) as [data|]; [|reflexivity]. cbv iota beta.
  change (X.BootMemory_new p (Int off) H.host_RAM_SIZE (map Int data)) with (Some (boot_text (Ld.BootMemory off Ld.RAM_SIZE data))).
  cbn [Ld.e_inpdata Ld.e_outdata elf_of].
  destruct (ElfBytes_section_header_by_name Hs x (str inp_name)) as [[i|]|]; [|reflexivity|reflexivity].
  destruct (ElfBytes_section_header_by_name Hs x (str out_name)) as [[o|]|]; reflexivity.
Qed.
End Image.

(** ** Settings *)
Lemma eq_list_int : forall {t} (a : list (int t)) b, eq_list a (map Int b) = Verif.EncVM.eqb_list (map val a) b.
Proof. intros t a. induction a as [|x a IH]; intros [|y b]; try reflexivity. cbn. rewrite IH. reflexivity. Qed.
Lemma lower_val : forall a, map val (map ascii_lower a) = map Verif.Host.lower (map val a).
Proof.
  intro a. rewrite !map_map. apply map_ext. intros [c]. unfold ascii_lower, Verif.Host.lower. cbn [val]. destruct (_ && _); reflexivity.
Qed.
Definition text_of (v : option (list (int U8))) : option (list Z) := option_map (map val) v.
Lemma flag_str : forall s, eq_list s (str [49]) || eq_ignore_ascii_case s (str [116; 114; 117; 101]) = Verif.Host.flag_of (Some (map val s)).
Proof.
  intro s. unfold Verif.Host.flag_of. apply f_equal2; [exact (eq_list_int s [49])|].
  transitivity (Verif.EncVM.eqb_list (map val (map ascii_lower s)) [116; 114; 117; 101]); [exact (eq_list_int (map ascii_lower s) [116; 114; 117; 101])|].
  rewrite lower_val. reflexivity.
Qed.
Lemma flag_text : forall v, exists t,
  map_option v (fun val => Some (eq_list val (str [49]) || eq_ignore_ascii_case val (str [116; 114; 117; 101]))) = Some t /\
  unwrap_or t false = Verif.Host.flag_of (text_of v).
Proof.
  intros [s|]; [|exists None; split; reflexivity]. eexists. split; [reflexivity|]. exact (flag_str s).
Qed.
Lemma number_from : forall ds v, fold_left (fun n (c : int U8) => 10 * n + (val c - 48)) ds v
  = v * 10 ^ Z.of_nat (length ds) + Verif.HostSpec.decimal (map val ds).
Proof.
  induction ds as [|c ds IH]; intro v; cbn [fold_left length map Verif.HostSpec.decimal]; [change (10 ^ Z.of_nat 0) with 1; lia|].
  rewrite IH, PropHost.pow_step, map_length. ring.
Qed.
Lemma digits_text : forall ds,
  (if forallb (fun c : int U8 => (48 <=? val c) && (val c <=? 57)) ds && (number ds <? 2 ^ 64) then Some (Int (number ds)) else None)
  = option_map (@Int USize) (Verif.Host.parse_digits (map val ds)).
Proof.
  intro ds. assert (N : number ds = Verif.HostSpec.decimal (map val ds)) by (unfold number; rewrite number_from; lia).
  assert (F : forallb (fun c : int U8 => (48 <=? val c) && (val c <=? 57)) ds = true <-> Forall (fun c => 48 <= c <= 57) (map val ds)).
  { rewrite forallb_forall, Forall_forall. split.
    - intros H x I. apply in_map_iff in I as (c & <- & I). specialize (H c I). apply andb_true_iff in H as [H1 H2]. lia.
    - intros H c I. specialize (H (val c) (in_map _ _ _ I)). apply andb_true_iff. lia. }
  rewrite N. set (b := forallb _ ds) in *. destruct (Verif.Host.parse_digits (map val ds)) as [n|] eqn:E.
  - apply PropHost.parse_digits_ok in E as (E1 & E2 & E3). apply F in E1. rewrite E1, <- E2. cbn [andb].
    destruct (Z.ltb_spec n (2 ^ 64)); [reflexivity|lia].
  - destruct b; [|reflexivity]. destruct (Z.ltb_spec (Verif.HostSpec.decimal (map val ds)) (2 ^ 64)) as [B|]; [|reflexivity].
    pose proof (proj2 (PropHost.parse_digits_ok (map val ds) _) (conj (proj1 F eq_refl) (conj eq_refl B))). congruence.
Qed.
Lemma parse_text : forall s, RustStr.parse_usize s = option_map Int (Verif.Host.parse_usize (map val s)).
Proof.
  intros [|c [|d r]]; [reflexivity| |].
  - unfold RustStr.parse_usize, Verif.Host.parse_usize. cbn [map]. cbv zeta.
    destruct (Z.eqb_spec (val c) 43) as [|N]; [reflexivity|]. cbn [orb]. rewrite digits_text.
    destruct c as [c]. cbn [map val] in *. destruct (Z.eqb_spec c 45) as [->|]; reflexivity.
  - unfold RustStr.parse_usize, Verif.Host.parse_usize. cbn [map]. cbv zeta.
    destruct (val c =? 43); exact (digits_text _).
Qed.
Lemma number_text : forall v d, exists t,
  map_option v (fun val => Some (unwrap_or (RustStr.parse_usize val) d)) = Some t /\
  unwrap_or t d = Int (Verif.Host.number_of (val d) (text_of v)).
Proof.
  intros [s|] d; [|exists None; split; [reflexivity|symmetry; apply int_val]]. eexists. split; [reflexivity|]. cbn. rewrite parse_text.
  destruct (Verif.Host.parse_usize (map val s)); cbn; rewrite ?int_val; reflexivity.
Qed.

(** ** Bytes and words *)
Lemma shl_byte : forall {s} p (k : Z) b, (0 <= b < 256) -> 0 <= k <= 24 ->
  shl p (cast U32 (@Int U8 b)) (@Int s k) = Some (Int (Word.shl32 b k)) /\ 0 <= Word.shl32 b k <= 255 * 2 ^ k.
Proof.
  intros s p k b B K. assert (E : Word.shl32 b k = b * 2 ^ k).
  { unfold Word.shl32, Word.u32. rewrite Z.shiftl_mul_pow2 by lia. apply Z.mod_small.
    assert (0 < 2 ^ k <= 2 ^ 24) by (split; [apply Z.pow_pos_nonneg; lia|apply Z.pow_le_mono_r; lia]). nia. }
  change (cast U32 (@Int U8 b)) with (@Int U32 b). rewrite shl_in by (cbn [bits]; lia). split; [reflexivity|].
  rewrite E. assert (0 < 2 ^ k) by (apply Z.pow_pos_nonneg; lia). nia.
Qed.
Lemma word_loop : forall p a b c d, u8_val a -> u8_val b -> u8_val c -> u8_val d ->
  for_range (@lit USize 0) (lit 4) (fun i inst => t4 <- index (map (@Int U8) [a; b; c; d]) i ;; t5 <- mul p i (lit 8) ;;
     t6 <- shl p (cast U32 t4) t5 ;; t7 <- add p inst t6 ;; Some t7) (lit (t := U32) 0) = Some (Int (Ld.le_word [a; b; c; d])).
Proof.
  intros p a b c d A B C D. unfold u8_val in *.
  assert (M : forall i, 0 <= i <= 3 -> mul p (@Int USize i) (lit 8) = Some (Int (i * 8))).
  { intros i I. apply (umul_small p i 8). lia. }
  unfold for_range. change (Z.to_nat (val (@lit USize 4) - val (@lit USize 0))) with 4%nat. cbn [counting for_each val lit Z.add Pos.add Pos.succ].
  rewrite !M by lia.
  change (index (map (@Int U8) [a; b; c; d]) (Int 0)) with (Some (@Int U8 a)). change (index (map (@Int U8) [a; b; c; d]) (Int 1)) with (Some (@Int U8 b)).
  change (index (map (@Int U8) [a; b; c; d]) (Int 2)) with (Some (@Int U8 c)). change (index (map (@Int U8) [a; b; c; d]) (Int 3)) with (Some (@Int U8 d)).
  cbv iota beta. unfold Ld.le_word. cbn [combine fold_left fst snd].
  destruct (shl_byte (s := USize) p (0 * 8) a A ltac:(lia)) as [-> E0]. destruct (shl_byte (s := USize) p (1 * 8) b B ltac:(lia)) as [-> E1].
  destruct (shl_byte (s := USize) p (2 * 8) c C ltac:(lia)) as [-> E2]. destruct (shl_byte (s := USize) p (3 * 8) d D ltac:(lia)) as [-> E3].
  change (255 * 2 ^ (0 * 8)) with 255 in E0. change (255 * 2 ^ (1 * 8)) with 65280 in E1.
  change (255 * 2 ^ (2 * 8)) with 16711680 in E2. change (255 * 2 ^ (3 * 8)) with 4278190080 in E3.
  rewrite Verif.TextTestRun.add_u32 by lia. rewrite Verif.TextTestRun.add_u32 by lia. rewrite Verif.TextTestRun.add_u32 by lia. rewrite Verif.TextTestRun.add_u32 by lia. reflexivity.
Qed.
Lemma words_text : forall {B} p (g : int U32 -> option B) (h : Z -> B), (forall w, g (Int w) = Some (h w)) ->
  forall fuel bs, (length bs <= fuel)%nat -> Forall u8_val bs ->
  RustIter.collect (exact_pieces fuel 4 (map (@Int U8) bs)) (fun four => 
     w <- for_range (@lit USize 0) (lit 4) (fun i inst => t4 <- index four i ;; t5 <- mul p i (lit 8) ;;
       t6 <- shl p (cast U32 t4) t5 ;; t7 <- add p inst t6 ;; Some t7) (lit (t := U32) 0) ;; g w)
  = Some (map h (Ld.chunks4 bs)).
Proof.
  intros B p g h G. induction fuel as [|fuel IH]; intros bs LE F.
  - destruct bs; [reflexivity|cbn in LE; lia].
  - destruct bs as [|a [|b [|c [|d r]]]]; try reflexivity.
    apply Forall_cons_iff in F as [F1 F]. apply Forall_cons_iff in F as [F2 F]. apply Forall_cons_iff in F as [F3 F]. apply Forall_cons_iff in F as [F4 F].
    change (exact_pieces (Datatypes.S fuel) 4 (map (@Int U8) (a :: b :: c :: d :: r))) with
      (map (@Int U8) [a; b; c; d] :: exact_pieces fuel 4 (map (@Int U8) r)).
    cbn [RustIter.collect]. rewrite word_loop by assumption. rewrite G. cbn [length] in LE. rewrite IH by (auto; lia). reflexivity.
Qed.
Lemma bytes_loop : forall p ws acc,
  for_each (map (@Int U32) ws) (fun word mem_bytes => let mem_bytes := (push mem_bytes (cast U8 (band word (lit 255)))) in
    t9 <- shr p word (lit (t := I32) 8) ;;
    let mem_bytes := (push mem_bytes (cast U8 (band t9 (lit 255)))) in
    t10 <- shr p word (lit (t := I32) 16) ;;
    let mem_bytes := (push mem_bytes (cast U8 (band t10 (lit 255)))) in
    t11 <- shr p word (lit (t := I32) 24) ;;
    let mem_bytes := (push mem_bytes (cast U8 (band t11 (lit 255)))) in
    Some mem_bytes) acc = Some (acc ++ map (@Int U8) (flat_map Ld.word_bytes ws)).
Proof.
  intros p. induction ws as [|w ws IH]; intro acc; [cbn; now rewrite app_nil_r|].
  cbn [map for_each]. cbv zeta. unfold lit. rewrite !shr_in by (cbn [bits]; lia). cbv iota beta. unfold band. cbn [val].
  change (fun (word : int U32) (mem_bytes : list (int U8)) => _) with (fun (word : int U32) (mem_bytes : list (int U8)) =>
    let mem_bytes := (push mem_bytes (cast U8 (band word (lit 255)))) in
    t9 <- shr p word (lit (t := I32) 8) ;;
    let mem_bytes := (push mem_bytes (cast U8 (band t9 (lit 255)))) in
    t10 <- shr p word (lit (t := I32) 16) ;;
    let mem_bytes := (push mem_bytes (cast U8 (band t10 (lit 255)))) in
    t11 <- shr p word (lit (t := I32) 24) ;;
    let mem_bytes := (push mem_bytes (cast U8 (band t11 (lit 255)))) in
    Some mem_bytes).
  rewrite IH. f_equal. unfold push. 
  rewrite !byte_cast by (first [apply byte_of|apply (byte_of w 0)]). cbn [flat_map Ld.word_bytes map app]. rewrite <- !app_assoc. reflexivity.
Qed.
Lemma mul64 : forall p a b, 0 <= a * b -> mul p (@Int USize a) (Int b) =
  if a * b <? b64 then Some (Int (a * b)) else if chk p then None else Some (Int ((a * b) mod b64)).
Proof.
  intros p a b H. unfold mul, checked, fits, val, least, largest, wrap, is_signed, card. destruct (Z.leb_spec 0 (a * b)); [|lia]. cbn [andb].
  destruct (Z.leb_spec (a * b) 18446744073709551615), (Z.ltb_spec (a * b) b64); try lia; reflexivity.
Qed.
