(** * C108: the module that gen-tests writes holds the program and its test cases *)
Require Import ZArith List Bool String Lia.
Require Import Verif.Word Verif.Display Verif.DisplaySpec Verif.GenCode Verif.GenCodeSpec Verif.Loader Verif.LoadSpec Verif.LoadFacts Verif.TestRunSpec.
Require Verif.PropDisplay Verif.PropLoad Verif.Rust Verif.Guests Verif.TextGenTests Verif.PropTextGuest.
Module G := Verif.Guests.
Module TG := Verif.TextGenTests.
Local Notation val := Rust.val.
Import ListNotations.
Open Scope Z_scope.

Lemma read_show : forall suffix bound n, 0 <= n < bound -> bound <= 2 ^ 64 ->
  read_lit suffix bound (Lit (show 10 n ++ suffix)) = Some n.
Proof.
  intros suffix bound n N B. unfold read_lit. rewrite app_length.
  replace (List.length (show 10 n) + List.length suffix - List.length suffix)%nat with (List.length (show 10 n)) by lia.
  rewrite skipn_app, skipn_all, Nat.sub_diag, firstn_app, firstn_all, Nat.sub_diag. cbn [skipn firstn app]. rewrite app_nil_r.
  unfold list_eqb. destruct (list_eq_dec Z.eq_dec suffix suffix) as [_|H]; [|now destruct H].
  destruct (PropDisplay.show_meaning 10 n ltac:(lia) ltac:(lia)) as [(N1 & N2 & N3) _].
  assert (D : read_digits (show 10 n) = Some n).
  { unfold read_digits. destruct (show 10 n) as [|c s] eqn:E; [now destruct N1|]. rewrite <- E in *.
    replace (forallb _ (show 10 n)) with true; [now rewrite N3|]. symmetry. apply forallb_forall. intros x I.
    rewrite Forall_forall in N2. specialize (N2 x I). unfold is_digit in N2.
    apply andb_true_intro. split; apply Z.leb_le; lia. }
  rewrite D. now destruct (Z.ltb_spec n bound); [|lia].
Qed.
Lemma read_lit_usize : forall n, 0 <= n < 2 ^ 64 -> read_usize (lit_usize n) = Some n.
Proof. intros n N. apply read_show; lia. Qed.
Lemma read_lit_u8 : forall n, 0 <= n < 256 -> read_u8 (lit_u8 n) = Some n.
Proof. intros n N. apply read_show; lia. Qed.

Definition no_punct (p : string) (ts : list tok) : Prop := Forall (fun t => is_punct p t = false) ts.

Lemma split_clean : forall p x, no_punct p x -> split_on p x = [x].
Proof. intros p x F. induction F as [|t x E F IH]; [reflexivity|]. cbn [split_on]. now rewrite E, IH. Qed.
Lemma split_step : forall p x r, no_punct p x -> split_on p (x ++ Pt p :: r) = x :: split_on p r.
Proof.
  intros p x r F. induction F as [|t x E F IH].
  - cbn [app split_on is_punct]. now rewrite String.eqb_refl.
  - cbn [app split_on]. now rewrite E, IH.
Qed.
Lemma parts_commas : forall xs, Forall (fun x => x <> [] /\ no_punct "," x) xs -> parts (commas xs) = xs.
Proof.
  assert (S : forall xs, xs <> [] -> Forall (fun x => x <> [] /\ no_punct "," x) xs -> split_on "," (commas xs) = xs).
  { induction xs as [|x xs IH]; intros N F; [now destruct N|]. inversion F as [|? ? [_ C] F']; subst.
    destruct xs as [|y ys]; [now apply split_clean|].
    change (commas (x :: y :: ys)) with (x ++ Pt "," :: commas (y :: ys)).
    rewrite split_step by exact C. rewrite IH; [reflexivity|discriminate|exact F']. }
  intros xs F. destruct xs as [|x xs]; [reflexivity|].
  unfold parts. inversion F as [|? ? [N _] _]; subst.
  destruct (commas (x :: xs)) as [|t ts] eqn:E.
  - destruct xs; [now destruct N|]. cbn in E. apply app_eq_nil in E. now destruct E.
  - rewrite <- E. apply S; [discriminate|exact F].
Qed.

Lemma traverse_map : forall A B C (f : A -> B) (g : B -> option C) (h : A -> C) xs,
  (forall x, In x xs -> g (f x) = Some (h x)) -> traverse g (map f xs) = Some (map h xs).
Proof.
  induction xs as [|x xs IH]; intros H; [reflexivity|]. cbn [map traverse].
  rewrite (H x (or_introl Logic.eq_refl)), IH; [reflexivity|]. intros y I. apply H. now right.
Qed.

Lemma read_byte_array : forall bs, Forall is_byte bs -> read_array (byte_array bs) = Some bs.
Proof.
  intros bs F. unfold read_array, byte_array. rewrite String.eqb_refl, parts_commas.
  - rewrite (traverse_map _ _ _ _ _ (fun b => b)); [now rewrite map_id|].
    intros b I. apply read_lit_u8. rewrite Forall_forall in F. apply F in I. unfold is_byte in I. lia.
  - apply Forall_map, Forall_forall. intros b _. split; [discriminate|]. now repeat constructor.
Qed.

(** ** one constant *)
Lemma before_clean : forall p x r, no_punct p x -> before p (x ++ Pt p :: r) = Some (x, r).
Proof.
  intros p x r F. induction F as [|t x E F IH].
  - cbn [app before is_punct]. now rewrite String.eqb_refl.
  - cbn [app before]. now rewrite E, IH.
Qed.
Lemma read_item : forall f name ty val v r, no_punct "=" ty -> no_punct ";" val -> read_value ty val = Some v ->
  read_consts (S f) (item name ty val ++ r) =
  match read_consts f r with Some (cs, rest) => Some ((name, v) :: cs, rest) | None => None end.
Proof.
  intros f name ty val v r T V E. unfold item. rewrite <- !app_assoc. cbn [app].
  cbn [read_consts is_punct]. change (String.eqb "pub" "pub") with true. change (String.eqb "const" "const") with true.
  change (String.eqb ":" ":") with true. cbn [andb].
  now rewrite before_clean, before_clean, E by assumption.
Qed.
Lemma read_number : forall f name n r, 0 <= n < 2 ^ 64 ->
  read_consts (S f) (number name n ++ r) =
  match read_consts f r with Some (cs, rest) => Some ((name, Num n) :: cs, rest) | None => None end.
Proof.
  intros f name n r N. apply read_item; [now repeat constructor|now repeat constructor|].
  cbn [read_value]. change (String.eqb "usize" "usize") with true. cbv iota. now rewrite read_lit_usize.
Qed.
Lemma read_bytes : forall f name bs r, Forall is_byte bs -> Z.of_nat (List.length bs) < 2 ^ 64 ->
  read_consts (S f) (bytes name bs ++ r) =
  match read_consts f r with Some (cs, rest) => Some ((name, Bytes bs) :: cs, rest) | None => None end.
Proof.
  intros f name bs r B L. apply read_item; [now repeat constructor|now repeat constructor|].
  unfold read_value. cbn [is_punct]. rewrite !String.eqb_refl. cbn [andb].
  rewrite read_lit_usize by lia. rewrite read_byte_array by exact B. now rewrite Z.eqb_refl.
Qed.
Lemma read_slices : forall f name xs r, Forall (Forall is_byte) xs ->
  read_consts (S f) (slices name xs ++ r) =
  match read_consts f r with Some (cs, rest) => Some ((name, Slices xs) :: cs, rest) | None => None end.
Proof.
  intros f name xs r B. apply read_item; [now repeat constructor|now repeat constructor|].
  unfold read_value. cbn [is_punct]. rewrite !String.eqb_refl. cbn [andb].
  rewrite parts_commas.
  - rewrite (traverse_map _ _ _ _ _ (fun b => b)); [now rewrite map_id|].
    intros x I. unfold read_slice. cbn [is_punct]. rewrite !String.eqb_refl. cbn [andb].
    apply read_byte_array. rewrite Forall_forall in B. now apply B.
  - apply Forall_map, Forall_forall. intros x _. split; [discriminate|]. now repeat constructor.
Qed.

Definition u64_ok (n : Z) : Prop := 0 <= n < 2 ^ 64.
Definition boot_ok (b : boot_memory) : Prop :=
  u64_ok (b_offset b) /\ u64_ok (b_size b) /\ Forall is_byte (b_data b) /\ Z.of_nat (List.length (b_data b)) < 2 ^ 64.
Definition region_ok (i : T.io_info) : Prop := u64_ok (T.start_addr i) /\ u64_ok (T.io_size i).
(** what the types of the fields say *)
Definition phantom_ok (ph : phantom) : Prop :=
  boot_ok (boot_rom ph) /\ boot_ok (boot_ram ph) /\ region_ok (inp_info ph) /\ region_ok (out_info ph).
Definition cases_ok (cases : list (list Z * list Z)) : Prop :=
  Z.of_nat (List.length cases) < 2 ^ 64 /\ Forall (fun c => Forall is_byte (fst c) /\ Forall is_byte (snd c)) cases.

(** the constants of the module are exactly these thirteen *)
Theorem C108_constants : forall ph cases, phantom_ok ph -> cases_ok cases ->
  constants (codegen_test_cases ph cases) = Some
    ([("BOOT_ROM_OFFSET"%string, Num (b_offset (boot_rom ph)));
      ("BOOT_ROM_SIZE"%string, Num (b_size (boot_rom ph)));
      ("BOOT_ROM_DATA"%string, Bytes (b_data (boot_rom ph)));
      ("BOOT_RAM_OFFSET"%string, Num (b_offset (boot_ram ph)));
      ("BOOT_RAM_SIZE"%string, Num (b_size (boot_ram ph)));
      ("BOOT_RAM_DATA"%string, Bytes (b_data (boot_ram ph)));
      ("INPUT_START_ADDR"%string, Num (T.start_addr (inp_info ph)));
      ("INPUT_SIZE"%string, Num (T.io_size (inp_info ph)));
      ("OUTPUT_START_ADDR"%string, Num (T.start_addr (out_info ph)));
      ("OUTPUT_SIZE"%string, Num (T.io_size (out_info ph)));
      ("TEST_CASES_COUNT"%string, Num (Z.of_nat (List.length cases)));
      ("TEST_CASE_INPUTS"%string, Slices (map fst cases));
      ("TEST_CASE_OUTPUTS"%string, Slices (map snd cases))], helper).
Proof.
  intros ph cases ((A1 & A2 & A3 & A4) & (B1 & B2 & B3 & B4) & (I1 & I2) & (O1 & O2)) (CL & CB).
  unfold u64_ok in *. unfold constants.
  assert (K : exists f, S (List.length (codegen_test_cases ph cases)) = (14 + f)%nat).
  { exists (List.length (codegen_test_cases ph cases) - 13)%nat.
    enough (13 <= List.length (codegen_test_cases ph cases))%nat by lia.
    unfold codegen_test_cases, number, item. rewrite !app_length. cbn [List.length]. lia. }
  destruct K as [f ->]. cbn [plus]. unfold codegen_test_cases.
  rewrite !read_number, !read_bytes, !read_number, !read_bytes, !read_number by (assumption || lia).
  rewrite !read_slices.
  - reflexivity.
  - apply Forall_map. apply Forall_impl with (2 := CB). now intros c [_ H].
  - apply Forall_map. apply Forall_impl with (2 := CB). now intros c [H _].
Qed.
Print Assumptions C108_constants.

(** ** what a test program using the module sees *)
Lemma combine_split : forall (cases : list (list Z * list Z)), combine (map fst cases) (map snd cases) = cases.
Proof. induction cases as [|[a b] cases IH]; cbn; congruence. Qed.

Lemma traverse_some : forall A (xs : list A) f, (forall x, f x = Some x) -> traverse f xs = Some xs.
Proof. intros A xs f H. induction xs as [|x xs IH]; [reflexivity|]. cbn [traverse]. now rewrite H, IH. Qed.
(** the function of the module pairs the two tables *)
Lemma call_helper : forall cs cases, lookup "TEST_CASE_INPUTS" cs = Some (Slices (map fst cases)) ->
  lookup "TEST_CASE_OUTPUTS" cs = Some (Slices (map snd cases)) -> call "get_test_cases" cs helper = Some cases.
Proof.
  intros cs cases I O. unfold call.
  replace (toks_eqb helper (signature "get_test_cases" ++ [Grp "{" (chain "TEST_CASE_INPUTS" "TEST_CASE_OUTPUTS" "input" "output" "input" "output")])) with true by (vm_compute; reflexivity).
  cbn [skipn helper]. change (negb (String.eqb "input" "output")) with true. cbn [andb]. rewrite I, O, combine_split.
  apply traverse_some. intros [a b]. reflexivity.
Qed.
(** the types of the fields hold of what is loaded *)
Lemma loaded_ok : forall chk e ph, elf_ok e -> from_elf chk e = Some ph -> phantom_ok ph.
Proof.
  intros chk e ph E F.
  destruct (from_elf_ok chk e ph E F) as ((txt & _ & _ & _ & _ & R1 & R2 & R3 & R4 & R5 & _) & _ & A1 & A2 & A3 & A4 & _ & _ & _ & _ & (I1 & I2) & (O1 & O2)).
  unfold is_u32, RAM_SIZE in *. unfold phantom_ok, boot_ok, region_ok, u64_ok.
  repeat split; try assumption; lia.
Qed.

(** for every accepted program (from_elf) and every list of cases: no name twice,
    the program by its constants, the cases in order *)
Theorem C108_module : forall chk e ph cases, elf_ok e -> from_elf chk e = Some ph -> cases_ok cases ->
  exists ts cs rest, write_test_cases chk e cases = Some ts /\ constants ts = Some (cs, rest) /\
    NoDup (map fst cs) /\ call "get_test_cases" cs rest = Some cases /\
    lookup "TEST_CASES_COUNT" cs = Some (Num (Z.of_nat (List.length cases))) /\
    lookup "BOOT_ROM_OFFSET" cs = Some (Num (b_offset (boot_rom ph))) /\
    lookup "BOOT_ROM_SIZE" cs = Some (Num (b_size (boot_rom ph))) /\
    lookup "BOOT_ROM_DATA" cs = Some (Bytes (b_data (boot_rom ph))) /\
    lookup "BOOT_RAM_OFFSET" cs = Some (Num (b_offset (boot_ram ph))) /\
    lookup "BOOT_RAM_SIZE" cs = Some (Num (b_size (boot_ram ph))) /\
    lookup "BOOT_RAM_DATA" cs = Some (Bytes (b_data (boot_ram ph))) /\
    lookup "INPUT_START_ADDR" cs = Some (Num (T.start_addr (inp_info ph))) /\
    lookup "INPUT_SIZE" cs = Some (Num (T.io_size (inp_info ph))) /\
    lookup "OUTPUT_START_ADDR" cs = Some (Num (T.start_addr (out_info ph))) /\
    lookup "OUTPUT_SIZE" cs = Some (Num (T.io_size (out_info ph))).
Proof.
  intros chk e ph cases E F C. unfold write_test_cases. rewrite F.
  eexists. eexists. exists helper. split; [reflexivity|]. split; [apply C108_constants; [eapply loaded_ok; eassumption|exact C]|].
  split.
  - cbn [map fst]. repeat (constructor; [cbn [In]; intuition discriminate|]). constructor.
  - split; [apply call_helper; reflexivity|].
    repeat split; reflexivity.
Qed.
Print Assumptions C108_module.

(** the module determines the program and the cases *)
Theorem C108_faithful : forall ph ph' cases cases', phantom_ok ph -> phantom_ok ph' -> cases_ok cases -> cases_ok cases' ->
  codegen_test_cases ph cases = codegen_test_cases ph' cases' -> ph = ph' /\ cases = cases'.
Proof.
  intros ph ph' cases cases' P P' C C' E.
  pose proof (C108_constants ph cases P C) as R. rewrite E, (C108_constants ph' cases' P' C') in R.
  destruct ph as [[? ? ?] [? ? ?] [? ?] [? ?]], ph' as [[? ? ?] [? ? ?] [? ?] [? ?]].
  cbn in R. injection R. intros. subst. split; [reflexivity|].
  rewrite <- (combine_split cases), <- (combine_split cases'). congruence.
Qed.
Print Assumptions C108_faithful.

(** ** the module of guest-test1 (guest_test1.rs:45-51)

    Whatever is in the padding of the host's structures: the pairs that
    get_test_cases gives are an input tape and the output tape that the guest as
    built makes of it. *)
Lemma made_by : forall A B p cs, TG.gen_test_cases A B p = Some cs ->
  Forall (fun c => (exists x, fst c = A x) /\ (exists y, snd c = B y)) cs.
Proof.
  intros A B p cs H. unfold TG.gen_test_cases in H. cbn [Rust.for_each] in H.
  repeat match type of H with
  | context [TG.gen_run p ?x] => destruct (TG.gen_run p x); [|cbn in H; discriminate H]
  end.
  cbn in H. injection H as <-. repeat (constructor; [cbn [fst snd]; split; eexists; reflexivity|]). constructor.
Qed.
Lemma le_bytes : forall n z, Forall is_byte (G.le n z).
Proof.
  induction n as [|n IH]; intros z; cbn [G.le]; constructor; [|apply IH].
  unfold is_byte. apply Z.mod_pos_bound. lia.
Qed.
Lemma input_are_bytes : forall pad x, (forall i, is_byte (pad i)) -> Forall is_byte (map val (PropTextGuest.input_bytes pad x)).
Proof.
  intros pad x B. unfold PropTextGuest.input_bytes. rewrite map_map, map_id. set (a := val _). set (b := Word.b2w _). clearbody a b.
  replace (G.encode 8 pad 0 G.test1_input_ty _) with (G.le 4 a ++ G.le 1 b ++ [pad 5%nat; pad 6%nat; pad 7%nat]) by reflexivity.
  repeat (apply Forall_app; split); try apply le_bytes. repeat constructor; apply B.
Qed.
Lemma output_are_bytes : forall pad x, Forall is_byte (map val (PropTextGuest.output_bytes pad x)).
Proof.
  intros pad x. unfold PropTextGuest.output_bytes. rewrite map_map, map_id. set (a := val _). clearbody a.
  replace (G.encode 8 pad 0 G.test1_output_ty _) with (G.le 4 a) by reflexivity. apply le_bytes.
Qed.
Theorem C108_test1 : forall chk e ph p pad, elf_ok e -> from_elf chk e = Some ph -> (forall i, is_byte (pad i)) ->
  exists cases ts cs rest,
    option_map (map (fun c => (map val (fst c), map val (snd c))))
      (TG.gen_test_cases (PropTextGuest.input_bytes pad) (PropTextGuest.output_bytes pad) p) = Some cases /\
    write_test_cases chk e cases = Some ts /\ constants ts = Some (cs, rest) /\
    call "get_test_cases" cs rest = Some cases /\ List.length cases = 6%nat /\
    Forall (fun c => G.test1_guest (fst c) = Some (snd c)) cases.
Proof.
  intros chk e ph p pad E F B.
  destruct (PropTextGuest.C101_cases p pad) as (cs & T & L & _ & H).
  assert (C : cases_ok (map (fun c => (map val (fst c), map val (snd c))) cs)).
  { split; [rewrite map_length, L; reflexivity|].
    apply Forall_map. apply Forall_impl with (2 := made_by _ _ _ _ T). intros c [[x X] [y Y]]. cbn [fst snd]. rewrite X, Y.
    split; [apply input_are_bytes; exact B|apply output_are_bytes]. }
  destruct (C108_module chk e ph _ E F C) as (ts & k & rest & W & K & _ & Q & _).
  eexists. exists ts, k, rest. rewrite T. split; [reflexivity|]. split; [exact W|]. split; [exact K|]. split; [exact Q|].
  split; [now rewrite map_length|]. apply Forall_map. exact H.
Qed.
Print Assumptions C108_test1.

(** a program of 8 bytes with a RAM of three, one test case *)
Definition ex_phantom : phantom :=
  Phantom (BootMemory 0 8 [19; 5; 160; 0; 115; 0; 0; 0]) (BootMemory 0x8000 3 [1; 0; 255]) {| T.start_addr := 0x8001; T.io_size := 1 |} {| T.start_addr := 0x8000; T.io_size := 1 |}.
Example C108_case : phantom_ok ex_phantom /\ cases_ok [([7], [8]); ([], [255; 0])] /\
  bytes "X" [1; 255] = [Id "pub"; Id "const"; Id "X"; Pt ":"; Grp "[" [Id "u8"; Pt ";"; Lit [50; 117; 115; 105; 122; 101]]; Pt "=";
                        Grp "[" [Lit [49; 117; 56]; Pt ","; Lit [50; 53; 53; 117; 56]]; Pt ";"] /\
  option_map (fun k => call "get_test_cases" (fst k) (snd k)) (constants (codegen_test_cases ex_phantom [([7], [8]); ([], [255; 0])]))
    = Some (Some [([7], [8]); ([], [255; 0])]) /\
  elf_ok (PropLoad.ex_elf 0 16) /\ from_elf true (PropLoad.ex_elf 0 16) <> None.
Proof.
  split; [|split; [|split; [|split; [|split]]]].
  - repeat split; try lia; repeat constructor; cbn; try lia; unfold is_byte; lia.
  - split; [reflexivity|]. repeat constructor; unfold is_byte; cbn; lia.
  - reflexivity.
  - vm_compute. reflexivity.
  - apply PropLoad.ex_elf_ok; unfold is_u32; lia.
  - assert (H : match from_elf true (PropLoad.ex_elf 0 16) with Some _ => true | None => false end = true) by (vm_compute; reflexivity).
    destruct (from_elf _ _); [discriminate|discriminate H].
Qed.
