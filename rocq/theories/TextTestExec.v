(** * The translated reference machine equals its model: one step and a run *)
Require Import ZArith List Bool Lia.
From Verif Require Import Rust TextFacts TextTestFacts TextTestRun.
Require Verif.Isa Verif.Bits Verif.ListFacts Verif.Word Verif.TestVM Verif.TestDecode Verif.TextTest.
Import ListNotations.
Open Scope Z_scope.
Local Notation chk := overflow_checks.

Ltac rd a :=
  match goal with
  | S : vm_typed ?s |- context [X.TestVM_register ?p (vm_of ?s) (r_of ?r)] =>
      rewrite (reg_read p s r);
      let E := fresh "E" in
      destruct (V.register s r) as [ a | ] eqn:E; [ apply (reg_word s r a S) in E | reflexivity ];
      cbn [option_map]; cbv beta iota zeta
  end.
Ltac setrd :=
  match goal with
  | S : vm_typed ?s |- _ = option_map vm_of (V.set_rd (chk ?p) ?s ?r ?v) => exact (set_rd_eq p s r v S)
  end.
Ltac br :=
  match goal with
  | S : vm_typed ?s |- _ = option_map vm_of (V.branch (chk ?p) ?s ?b ?i) => exact (branch_eq p s i b S)
  end.
Lemma cast_small : forall t z n, 0 <= z < 2 ^ n -> 2 ^ n = card t -> is_signed t = false -> widens U32 t = false ->
  cast t (@Int U32 z) = Int z.
Proof.
  intros t z n Z0 C S W. unfold cast. rewrite W. unfold wrap, val. rewrite S. rewrite Z.mod_small by lia. reflexivity.
Qed.
Lemma ext8 : forall v, cast U8 (@Int U32 (V.extract_bits v 8)) = Int (V.extract_bits v 8).
Proof. intro v. apply (cast_small U8 _ 8); try reflexivity. apply extract_range. lia. Qed.
Lemma ext16 : forall v, cast U16 (@Int U32 (V.extract_bits v 16)) = Int (V.extract_bits v 16).
Proof. intro v. apply (cast_small U16 _ 16); try reflexivity. apply extract_range. lia. Qed.
Lemma word_byte : forall v, u8_val v -> word v.
Proof. unfold u8_val, Isa.word. change (2 ^ 32) with 4294967296. intros; lia. Qed.
Lemma word_half : forall v, 0 <= v < 65536 -> word v.
Proof. unfold Isa.word. change (2 ^ 32) with 4294967296. intros; lia. Qed.
Lemma wadd_room : forall a b, 0 <= Word.wadd a b /\ Word.wadd a b + 4 <= b64.
Proof. intros. destruct (Bits.word_u32 (a + b)) as (A & B). change (2 ^ 32) with 4294967296 in B. unfold Word.wadd. lia. Qed.

Lemma mulh_eq : forall p a b, word a -> word b ->
  Rust.shr p (Rust.cast Rust.U64 (Rust.wrapping_mul (Rust.cast Rust.I64 (Rust.cast Rust.I32 (@Int U32 a)))
    (Rust.cast Rust.I64 (Rust.cast Rust.I32 (@Int U32 b))))) (Rust.lit (t := Rust.I32) 32)
  = Some (Int (Z.shiftr (Word.u64 (Word.i64 (Word.i32 a * Word.i32 b))) 32)).
Proof. intros p a b A B. rewrite !cast_i32 by assumption. rewrite <- wrap_i64. reflexivity. Qed.
Lemma mulhsu_eq : forall p a b, word a ->
  Rust.shr p (Rust.cast Rust.U64 (Rust.wrapping_mul (Rust.cast Rust.I64 (Rust.cast Rust.I32 (@Int U32 a)))
    (Rust.cast Rust.I64 (@Int U32 b)))) (Rust.lit (t := Rust.I32) 32)
  = Some (Int (Z.shiftr (Word.u64 (Word.i64 (Word.i32 a * b))) 32)).
Proof. intros p a b A. rewrite !cast_i32 by assumption. rewrite <- wrap_i64. reflexivity. Qed.
Lemma to_u32 : forall z, cast U32 (@Int I32 z) = Int (Word.u32 z).
Proof. reflexivity. Qed.
Lemma to_u32' : forall z, cast U32 (@Int U64 z) = Int (Word.u32 z).
Proof. reflexivity. Qed.

Lemma run_eq : forall p s, vm_typed s -> X.TestVM_run p (vm_of s) = option_map vm_of (V.run (chk p) s).
Proof.
  intros p s T. pose proof T as (TR & TP & TO & TA). unfold X.TestVM_run, V.run. sflds. rewrite cast_usize.
  assert (UP : usize_val (V.pc s)).
  { destruct TP as (A & B). change (2 ^ 32) with 4294967296 in B. unfold usize_val. lia. }
  rewrite (proj1 (read_word_eq p false (V.rom s) (V.pc s) TO UP)).
  destruct (V.read_word (chk p) (V.rom s) (V.pc s)) as [ w | ]; [ cbn [option_map] | reflexivity ].
  cbv zeta. rewrite decode_eq. destruct (V.decode_inst w) as [ i | ] eqn:D; [ cbn [option_map] | reflexivity ].
  apply decode_ok in D.
  change (X.mk_TestVM (map Int (V.registers s)) (mem_of false (V.rom s)) (mem_of true (V.ram s)) (Int (V.pc s))
    (in_of (V.input_info s)) (out_of (V.output_info s)) (Int (Z.of_nat (V.max_cycles s)))) with (vm_of s).
  match goal with |- match ?e with _ => _ end = _ => assert (E : e = option_map vm_of (V.exec (chk p) s i)) end.
  2:{ rewrite E. destruct (V.exec (chk p) s i) as [ s' | ]; [ cbn [option_map] | reflexivity ].
      sflds. rewrite cast_usize. change (@lit U32 0) with (@Int U32 0). rewrite store_at.
      change (Z.to_nat 0) with 0%nat. destruct (Word.set_nth (V.registers s') 0 0); reflexivity. }
  destruct i; cbn [inst_ok] in D; cbn [inst_of]; unfold V.exec; cbv beta iota zeta; destruct D as (D1 & D2);
    try destruct D2 as (D2 & D3).
  all: try (rd a; rd b; setrd).
  all: try (rd a; setrd).
  all: try setrd.
  all: try (rd a; rd b; br).
  all: try rd a.
  all: try (lazymatch goal with
            | |- context [X.Memory_write_half] => fail
            | |- context [X.Memory_write_word] => fail
            | |- _ => rd b
            end).
  all: change (@lit USize 5) with (@Int USize 5); change (@lit USize 8) with (@Int USize 8);
       change (@lit USize 16) with (@Int USize 16).
  all: try rewrite extract_eq by lia.
  all: cbv beta iota zeta.
  (* SLL *) { rewrite shl_word32 by apply reg_ext. cbv beta iota zeta. setrd. }
  (* SLT *) { rewrite !cast_i32 by assumption. setrd. }
  (* SRL *) { rewrite shr_in by apply reg_ext. cbv beta iota zeta. setrd. }
  (* SRA *) { rewrite cast_i32 by assumption. rewrite shr_in by apply reg_ext. cbv beta iota zeta. setrd. }
  (* SLTI *) { rewrite !cast_i32 by assumption. setrd. }
  (* SLLI *) { rewrite shl_word32 by assumption. cbv beta iota zeta. setrd. }
  (* SRLI *) { rewrite shr_in by assumption. cbv beta iota zeta. setrd. }
  (* SRAI *) { rewrite cast_i32 by assumption. rewrite shr_in by assumption. cbv beta iota zeta. setrd. }
  (* MULH *) { rewrite mulh_eq by assumption. setrd. }
  (* MULHSU *) { rewrite mulhsu_eq by assumption. setrd. }
  (* DIV *) { rewrite !cast_i32 by assumption. rewrite div_i32. destruct (V.i32_div _ _); [ setrd | reflexivity ]. }
  (* DIVU *) { rewrite div_u32. destruct (V.u32_div _ _); [ setrd | reflexivity ]. }
  (* REM *) { rewrite !cast_i32 by assumption. rewrite rem_i32. destruct (V.i32_rem _ _); [ setrd | reflexivity ]. }
  (* REMU *) { rewrite rem_u32. destruct (V.u32_rem _ _); [ setrd | reflexivity ]. }
  (* JAL *) { apply (link_eq p s rd (Word.wadd (V.pc s) off) T). apply Bits.word_u32. }
  (* JALR *) { change (wrapping_add (@Int U32 a) (Int imm)) with (@Int U32 (Word.wadd a imm)).
    change (@lit I32 1) with (@Int I32 1). rewrite shr_in by (cbn; lia). cbv beta iota zeta. rewrite shl_word32 by lia. cbv beta iota zeta.
    apply (link_eq p s rd (Word.shl32 (Word.shr32 (Word.wadd a imm) 1) 1) T). apply Bits.word_u32. }
  (* BLT *) { rewrite !cast_i32 by assumption. br. }
  (* BGE *) { rewrite !cast_i32 by assumption. br. }
  (* LB *) { rewrite addr_eq. sflds. destruct (read_byte_eq p true (V.ram s) (Word.wadd a imm) TA (addr_usize a imm)) as (R & B).
    rewrite R. destruct (V.read_byte _ _ _) as [ v | ]; [ cbn [option_map] | reflexivity ].
    change (cast U32 (@Int U8 v)) with (@Int U32 v).
    rewrite sign_extend_eq by (try lia; exact (word_byte _ (B v eq_refl))).
    destruct (V.sign_extend v 8); [ setrd | reflexivity ]. }
  (* LH *) { refine (eq_trans (half_eq p (Word.wadd a imm) _ (Bits.word_u32 _)) _). rewrite addr_eq.
    destruct (V.half_ok _); [ | reflexivity ].
    sflds. destruct (read_half_eq p true (V.ram s) (Word.wadd a imm) TA (addr_usize a imm)) as (R & B).
    rewrite R. destruct (V.read_half _ _ _) as [ v | ]; [ cbn [option_map] | reflexivity ].
    change (cast U32 (@Int U16 v)) with (@Int U32 v).
    rewrite sign_extend_eq by (try lia; exact (word_half _ (B v eq_refl))).
    destruct (V.sign_extend v 16); [ setrd | reflexivity ]. }
  (* LW *) { rewrite addr_eq. change (wrapping_add (@Int U32 a) (Int imm)) with (@Int U32 (Word.wadd a imm)).
    rewrite rem_lit by (try reflexivity; apply Bits.word_u32). unfold Rust.eq at 1. unfold lit at 1. unfold val at 1 2.
    destruct (_ =? 0); [ | reflexivity ].
    sflds. destruct (read_word_eq p true (V.ram s) (Word.wadd a imm) TA (addr_usize a imm)) as (R & B).
    rewrite R. destruct (V.read_word _ _ _) as [ v | ]; [ setrd | reflexivity ]. }
  (* LBU *) { rewrite addr_eq. sflds. destruct (read_byte_eq p true (V.ram s) (Word.wadd a imm) TA (addr_usize a imm)) as (R & B).
    rewrite R. destruct (V.read_byte _ _ _) as [ v | ]; [ setrd | reflexivity ]. }
  (* LHU *) { refine (eq_trans (half_eq p (Word.wadd a imm) _ (Bits.word_u32 _)) _). rewrite addr_eq.
    destruct (V.half_ok _); [ | reflexivity ].
    sflds. destruct (read_half_eq p true (V.ram s) (Word.wadd a imm) TA (addr_usize a imm)) as (R & B).
    rewrite R. destruct (V.read_half _ _ _) as [ v | ]; [ setrd | reflexivity ]. }
  (* SB *) { rewrite addr_eq, ext8. sflds. rewrite (write_byte_eq p true) by (auto; apply addr_usize).
    exact (stored_eq p s _ T). }
  (* SH *) { refine (eq_trans (half_eq p (Word.wadd a imm) _ (Bits.word_u32 _)) _). rewrite addr_eq.
    destruct (V.half_ok _); [ | destruct (V.register s rs2); reflexivity ]. rd b.
    rewrite extract_eq by lia. cbv beta iota zeta. rewrite ext16. sflds.
    destruct (wadd_room a imm). rewrite (proj1 (write_half_eq p true (V.ram s) (Word.wadd a imm) _ TA ltac:(lia) ltac:(lia))).
    exact (stored_eq p s _ T). }
  (* SW *) { rewrite addr_eq. change (wrapping_add (@Int U32 a) (Int imm)) with (@Int U32 (Word.wadd a imm)).
    rewrite rem_lit by (try reflexivity; apply Bits.word_u32). unfold Rust.eq at 1. unfold lit at 1. unfold val at 1 2.
    destruct (_ =? 0); [ | destruct (V.register s rs2); reflexivity ]. rd b. sflds.
    destruct (wadd_room a imm). rewrite (proj1 (write_word_eq p true (V.ram s) (Word.wadd a imm) _ TA ltac:(lia) ltac:(lia))).
    exact (stored_eq p s _ T). }
Qed.

(** ** A step keeps the values inside their types *)
Definition keeps (s s' : V.vm) : Prop :=
  V.rom s' = V.rom s /\ V.input_info s' = V.input_info s /\ V.output_info s' = V.output_info s /\
  V.max_cycles s' = V.max_cycles s.
Definition good (s s' : V.vm) : Prop := vm_typed s' /\ keeps s s'.
Lemma pc4_word : forall c z z', word z -> V.pc4 c z = Some z' -> word z'.
Proof.
  intros c z z' (A & B). unfold V.pc4. change (2 ^ 32) with 4294967296 in B.
  destruct (Z.ltb_spec (z + 4) 4294967296); [ | destruct c; [ discriminate | ] ]; intro Q; injection Q as <-.
  - unfold Isa.word. change (2 ^ 32) with 4294967296. lia.
  - apply Bits.word_u32.
Qed.
Lemma with_good : forall s r m q, vm_typed s -> Forall word r -> mem_typed m -> word q -> good s (V.with_cpu s r m q).
Proof.
  intros s r m q (A & B & C & D) R M Q. unfold good, vm_typed, keeps. cbn. repeat split; auto; try apply Q; try apply C; apply M.
Qed.
Lemma set_rd_good : forall c s r v s', vm_typed s -> word v -> V.set_rd c s r v = Some s' -> good s s'.
Proof.
  intros c s r v s' T W. unfold V.set_rd. destruct (Word.set_nth (V.registers s) (Z.to_nat r) v) as [ l | ] eqn:E; [ | discriminate ].
  destruct (V.pc4 c (V.pc s)) as [ q | ] eqn:Q; [ | discriminate ]. intro H. injection H as <-.
  apply with_good; auto; [ | apply T | exact (pc4_word _ _ _ (proj1 (proj2 T)) Q) ].
  exact (ListFacts.set_nth_Forall _ _ _ _ _ _ E (proj1 T) W).
Qed.
Lemma link_good : forall c s r t s', vm_typed s -> word t -> V.link c s r t = Some s' -> good s s'.
Proof.
  intros c s r t s' T W. unfold V.link. destruct (t mod 4 =? 0); [ | discriminate ].
  destruct (Word.set_nth (V.registers s) (Z.to_nat r) _) as [ l | ] eqn:E; [ | discriminate ]. intro H. injection H as <-.
  apply with_good; auto; [ | apply T ]. exact (ListFacts.set_nth_Forall _ _ _ _ _ _ E (proj1 T) (Bits.word_u32 _)).
Qed.
Lemma branch_good : forall c s b imm s', vm_typed s -> V.branch c s b imm = Some s' -> good s s'.
Proof.
  intros c s b imm s' T. unfold V.branch. destruct b.
  - destruct (_ =? 0); [ | discriminate ]. intro H. injection H as <-. apply with_good; auto; try apply T. apply Bits.word_u32.
  - destruct (V.pc4 c (V.pc s)) as [ q | ] eqn:Q; [ | discriminate ]. intro H. injection H as <-.
    apply with_good; auto; try apply T. exact (pc4_word _ _ _ (proj1 (proj2 T)) Q).
Qed.
Lemma stored_good : forall c s om s', vm_typed s -> (forall m, om = Some m -> mem_typed m) -> V.stored c s om = Some s' -> good s s'.
Proof.
  intros c s [ m | ] s' T M; [ | discriminate ]. unfold V.stored.
  destruct (V.pc4 c (V.pc s)) as [ q | ] eqn:Q; [ | discriminate ]. intro H. injection H as <-.
  apply with_good; auto; try apply T. exact (pc4_word _ _ _ (proj1 (proj2 T)) Q).
Qed.
Lemma word_b2w : forall b, word (Word.b2w b).
Proof. intros []; split; cbn; lia. Qed.
Lemma word_quot : forall a b q, word a -> word b -> V.u32_div a b = Some q -> word q.
Proof.
  intros a b q (A0 & A1) (B0 & B1). unfold V.u32_div. destruct (Z.eqb_spec b 0); [ discriminate | ]. intro Q. injection Q as <-.
  rewrite Z.quot_div_nonneg by lia. split; [ apply Z.div_pos; lia | ]. apply Z.le_lt_trans with a; [ | exact A1 ].
  apply Z.div_le_upper_bound; nia.
Qed.
Lemma word_rem : forall a b q, word a -> word b -> V.u32_rem a b = Some q -> word q.
Proof.
  intros a b q (A0 & A1) (B0 & B1). unfold V.u32_rem. destruct (Z.eqb_spec b 0); [ discriminate | ]. intro Q. injection Q as <-.
  rewrite Z.rem_mod_nonneg by lia. pose proof (Z.mod_pos_bound a b). split; lia.
Qed.
Ltac words :=
  lazymatch goal with
  | |- word (Word.wadd _ _) => apply Bits.word_u32
  | |- word (Word.wsub _ _) => apply Bits.word_u32
  | |- word (Word.wmul _ _) => apply Bits.word_u32
  | |- word (Word.u32 _) => apply Bits.word_u32
  | |- word (Word.shl32 _ _) => apply Bits.word_u32
  | |- word (Word.sar32 _ _) => apply Bits.word_u32
  | |- word (Word.b2w _) => apply word_b2w
  | |- word (Z.lxor _ _) => apply Bits.word_lxor; assumption
  | |- word (Z.lor _ _) => apply Bits.word_lor; assumption
  | |- word (Z.land ?a ?b) => apply Bits.word_land_l; [ assumption | match goal with H : word b |- _ => apply H end ]
  | |- word (Word.shr32 _ (V.extract_bits _ 5)) => apply Bits.word_shr32; [ apply reg_ext | assumption ]
  | |- word (Word.shr32 _ _) => apply Bits.word_shr32; [ lia | assumption ]
  | |- _ => assumption
  end.
Lemma exec_good : forall c s i s', vm_typed s -> inst_ok i -> V.exec c s i = Some s' -> good s s'.
Proof.
  intros c s i s' T D. pose proof T as (TR & TP & TO & TA). 
  assert (P : exists p, chk p = c) by (exists {| overflow_checks := c; debug_assertions := c |}; reflexivity).
  destruct P as (p & <-).
  destruct i; cbn [inst_ok] in D; unfold V.exec; cbv beta iota zeta; destruct D as (D1 & D2);
    try (lazymatch type of D2 with _ /\ _ => destruct D2 as (D2 & D3) end);
  repeat match goal with
  | |- match V.register s ?r with Some _ => _ | None => _ end = _ -> _ =>
      let E := fresh "E" in destruct (V.register s r) eqn:E; [ apply (reg_word s r _ T) in E | discriminate ]
  | |- match V.u32_div ?a ?b with Some _ => _ | None => _ end = _ -> _ =>
      let E := fresh "E" in destruct (V.u32_div a b) eqn:E; [ apply word_quot in E; [ | assumption | assumption ] | discriminate ]
  | |- match V.u32_rem ?a ?b with Some _ => _ | None => _ end = _ -> _ =>
      let E := fresh "E" in destruct (V.u32_rem a b) eqn:E; [ apply word_rem in E; [ | assumption | assumption ] | discriminate ]
  | |- match V.i32_div ?a ?b with Some _ => _ | None => _ end = _ -> _ => destruct (V.i32_div a b); [ | discriminate ]
  | |- match V.i32_rem ?a ?b with Some _ => _ | None => _ end = _ -> _ => destruct (V.i32_rem a b); [ | discriminate ]
  | |- match V.read_byte ?c ?m ?a with Some _ => _ | None => _ end = _ -> _ =>
      let E := fresh "E" in destruct (V.read_byte c m a) eqn:E;
      [ apply (proj2 (read_byte_eq p true m a TA (addr_usize _ _))), word_byte in E | discriminate ]
  | |- match V.read_half ?c ?m ?a with Some _ => _ | None => _ end = _ -> _ =>
      let E := fresh "E" in destruct (V.read_half c m a) eqn:E;
      [ apply (proj2 (read_half_eq p true m a TA (addr_usize _ _))), word_half in E | discriminate ]
  | |- match V.read_word ?c ?m ?a with Some _ => _ | None => _ end = _ -> _ =>
      let E := fresh "E" in destruct (V.read_word c m a) eqn:E;
      [ apply (proj2 (read_word_eq p true m a TA (addr_usize _ _))) in E | discriminate ]
  | |- match V.sign_extend ?a ?b with Some _ => _ | None => _ end = _ -> _ =>
      let E := fresh "E" in destruct (V.sign_extend a b) eqn:E; [ apply sign_extend_word in E; [ | assumption ] | discriminate ]
  | |- (if ?b then _ else _) = _ -> _ => destruct b; [ | discriminate ]
  end;
  lazymatch goal with
  | |- V.set_rd _ _ _ _ = _ -> _ => apply set_rd_good; [ exact T | words ]
  | |- V.link _ _ _ _ = _ -> _ => apply link_good; [ exact T | words ]
  | |- V.branch _ _ _ _ = _ -> _ => apply branch_good; exact T
  | |- V.stored _ _ _ = _ -> _ => apply stored_good; [ exact T | intros m W ]
  end.
  - eapply write_byte_typed; [ exact TA | | exact W ]. apply (extract_range _ 8). lia.
  - match type of W with V.write_half _ _ (Word.wadd ?a ?b) ?v = _ => destruct (wadd_room a b);
      exact (proj2 (write_half_eq p true (V.ram s) (Word.wadd a b) v TA ltac:(lia) ltac:(lia)) m W) end.
  - match type of W with V.write_word _ _ (Word.wadd ?a ?b) ?v = _ => destruct (wadd_room a b);
      exact (proj2 (write_word_eq p true (V.ram s) (Word.wadd a b) v TA ltac:(lia) ltac:(lia)) m W) end.
Qed.
Lemma run_good : forall c s s', vm_typed s -> V.run c s = Some s' -> good s s'.
Proof.
  intros c s s' T. unfold V.run. destruct (V.read_word c (V.rom s) (V.pc s)); [ | discriminate ].
  destruct (V.decode_inst z) eqn:D; [ | discriminate ]. apply decode_ok in D.
  destruct (V.exec c s i) as [ s1 | ] eqn:E; [ | discriminate ]. destruct (exec_good _ _ _ _ T D E) as (T1 & K).
  destruct (Word.set_nth (V.registers s1) 0 0) as [ r | ] eqn:N; [ | discriminate ]. intro H. injection H as <-.
  assert (G : good s1 (V.with_cpu s1 r (V.ram s1) (V.pc s1))).
  { apply with_good; auto; try apply T1. refine (ListFacts.set_nth_Forall _ _ _ _ _ _ N (proj1 T1) _). split; cbn; lia. }
  destruct G as (G1 & G2). split; [ exact G1 | ]. unfold keeps in *. destruct K as (? & ? & ? & ?), G2 as (? & ? & ? & ?).
  repeat split; etransitivity; eassumption.
Qed.

(** ** A run *)
Lemma execute_loop : forall p c B n k s fuel, (forall x, c x = Some (lt (snd x) (X.TestVM_max_cycles (fst x)))) ->
  (forall x, B x = (t1 <- X.TestVM_run p (fst x) ;; t2 <- add p (snd x) (@lit USize 1) ;; Some (t1, t2))) ->
  vm_typed s -> Z.of_nat (V.max_cycles s) < b64 -> (k + n)%nat = V.max_cycles s -> (n < fuel)%nat ->
  Rust.while fuel c B (vm_of s, Int (Z.of_nat k))
  = option_map (fun s' => (vm_of s', Int (Z.of_nat (V.max_cycles s)))) (V.run_n (chk p) n s).
Proof.
  intros p c B n. induction n as [ | n IH ]; intros k s fuel HC HB T M K F; (destruct fuel as [ | fuel ]; [ lia | ]).
  - cbn [while V.run_n option_map]. rewrite HC. unfold lt, val. sflds. cbn [fst snd]. sflds.
    rewrite (proj2 (Z.ltb_ge _ _)) by lia. do 4 f_equal. lia.
  - cbn [while V.run_n]. rewrite HC. unfold lt, val. cbn [fst snd]. sflds.
    rewrite (proj2 (Z.ltb_lt _ _)) by lia. rewrite HB. cbn [fst snd]. 
    change (X.mk_TestVM (map Int (V.registers s)) (mem_of false (V.rom s)) (mem_of true (V.ram s)) (Int (V.pc s))
      (in_of (V.input_info s)) (out_of (V.output_info s)) (Int (Z.of_nat (V.max_cycles s)))) with (vm_of s).
    rewrite run_eq by exact T. destruct (V.run (chk p) s) as [ s' | ] eqn:R; [ cbn [option_map] | reflexivity ].
    destruct (run_good _ _ _ T R) as (T' & _ & _ & _ & MC).
    unfold lit. rewrite uadd_small by lia. replace (Z.of_nat k + 1) with (Z.of_nat (Datatypes.S k)) by lia.
    rewrite (IH (Datatypes.S k) s' fuel HC HB T') by lia. rewrite MC. reflexivity.
Qed.
Lemma execute_eq : forall p s fuel, vm_typed s -> Z.of_nat (V.max_cycles s) < b64 -> (V.max_cycles s < fuel)%nat ->
  X.TestVM_execute p fuel (vm_of s) = option_map vm_of (V.execute (chk p) s).
Proof.
  intros p s fuel T M F. unfold X.TestVM_execute, V.execute. cbv zeta.
  change (@lit USize 0) with (@Int USize (Z.of_nat 0)).
  rewrite (execute_loop p _ _ (V.max_cycles s) 0 s fuel); auto.
  - destruct (V.run_n _ _ _); reflexivity.
  - intros (x & k). reflexivity.
  - intros (x & k). cbn [fst snd]. destruct (X.TestVM_run p x); [ | reflexivity ]. destruct (add _ _ _); reflexivity.
Qed.
Lemma run_n_good : forall c n s s', vm_typed s -> V.run_n c n s = Some s' -> good s s'.
Proof.
  intros c n. induction n as [ | n IH ]; intros s s' T H; cbn in H.
  - injection H as <-. split; [ exact T | repeat split ].
  - destruct (V.run c s) as [ s1 | ] eqn:R; [ | discriminate ]. destruct (run_good _ _ _ T R) as (T1 & K1).
    destruct (IH _ _ T1 H) as (T2 & K2). split; [ exact T2 | ]. unfold keeps in *.
    destruct K1 as (? & ? & ? & ?), K2 as (? & ? & ? & ?). repeat split; etransitivity; eassumption.
Qed.

(** ** Start and tapes *)
Definition boot_of (off sz : Z) (d : list Z) : X.BootMemory := X.mk_BootMemory (map Int d) (Int off) (Int sz).
Lemma boot_new : forall p off sz d, X.BootMemory_new p (Int off) (Int sz) (map Int d) = Some (boot_of off sz d).
Proof. reflexivity. Qed.
Definition vec (l : list Z) : Prop := Forall u8_val l /\ Z.of_nat (length l) < 9223372036854775808.
Lemma init_eq : forall p ro rs rd ao az ad i o n,
  usize_val ro -> 0 <= rs < 9223372036854775808 -> vec rd -> usize_val ao -> 0 <= az < 9223372036854775808 -> vec ad ->
  X.TestVM_init p (boot_of ro rs rd) (boot_of ao az ad) (in_of i) (out_of o) (Int (Z.of_nat n))
  = option_map vm_of (V.init (chk p) ro rs rd ao az ad i o n)
  /\ (forall s, V.init (chk p) ro rs rd ao az ad i o n = Some s -> vm_typed s /\ V.input_info s = i /\ V.output_info s = o /\ V.max_cycles s = n).
Proof.
  intros p ro rs rd ao az ad i o n A B (C & C') D E (F & F'). unfold X.TestVM_init, V.init.
  cbn [boot_of X.BootMemory_offset X.BootMemory_size X.BootMemory_data]. rewrite !new_eq. cbv zeta.
  rewrite load_eq by (auto using new_typed).
  destruct (V.load_memory (chk p) (V.mem_new ro rs) ro rd) as [ m1 | ] eqn:E1; [ cbn [option_map] | split; [ reflexivity | discriminate ] ].
  rewrite load_eq by (auto using new_typed).
  destruct (V.load_memory (chk p) (V.mem_new ao az) ao ad) as [ m2 | ] eqn:E2; [ cbn [option_map] | split; [ reflexivity | discriminate ] ].
  split; [ reflexivity | ]. intros s H. injection H as <-. split; [ | repeat split ].
  unfold vm_typed. cbn [V.registers V.pc V.rom V.ram]. split; [ | split; [ | split ] ].
  - apply Forall_forall. intros x H. apply (repeat_spec 32) in H. subst x. split; cbn; lia.
  - split; cbn; lia.
  - exact (load_typed _ _ _ _ _ (new_typed _ _ A B) C E1).
  - exact (load_typed _ _ _ _ _ (new_typed _ _ D E) F E2).
Qed.
Lemma input_eq : forall p s tape, vm_typed s -> vec tape -> usize_val (V.start_addr (V.input_info s)) ->
  X.TestVM_read_input_tape p (vm_of s) (map Int tape) = option_map vm_of (V.read_input_tape (chk p) s tape)
  /\ (forall s', V.read_input_tape (chk p) s tape = Some s' -> good s s').
Proof.
  intros p s tape T (A & A') U. pose proof T as (TR & TP & TO & TA). unfold X.TestVM_read_input_tape, V.read_input_tape. sflds.
  cbn [in_of X.InputInfo_size X.InputInfo_start_addr]. unfold Rust.eq, len. rewrite map_length. change (cast USize (@Int USize (V.io_size (V.input_info s)))) with (@Int USize (V.io_size (V.input_info s))).
  unfold val. destruct (_ =? _); [ | split; [ reflexivity | discriminate ] ].
  rewrite load_eq by auto. destruct (V.load_memory _ _ _ _) as [ m | ] eqn:E; [ cbn [option_map] | split; [ reflexivity | discriminate ] ].
  split; [ reflexivity | ]. intros s' H. injection H as <-. apply with_good; auto. exact (load_typed _ _ _ _ _ TA A E).
Qed.
Lemma push_loop : forall {A B} (conv : B -> A) (f : nat -> option B) (body : int USize -> list A -> option (list A)) n k acc,
  (forall i l, (k <= i < k + n)%nat -> body (Int (Z.of_nat i)) l = option_map (fun x => l ++ [conv x]) (f i)) ->
  for_each (counting n (Z.of_nat k)) body acc = option_map (fun r => acc ++ map conv r) (V.mapM f (seq k n)).
Proof.
  intros A B conv f body n. induction n as [ | n IH ]; intros k acc H; cbn [counting for_each seq V.mapM option_map map].
  - rewrite app_nil_r. reflexivity.
  - rewrite H by lia. destruct (f k) as [ x | ]; [ cbn [option_map] | reflexivity ].
    replace (Z.of_nat k + 1) with (Z.of_nat (Datatypes.S k)) by lia.
    rewrite IH by (intros i l I; apply H; lia). destruct (V.mapM f (seq (Datatypes.S k) n)); [ | reflexivity ].
    cbn [option_map map]. rewrite <- app_assoc. reflexivity.
Qed.
Lemma output_eq : forall p s, vm_typed s -> 0 <= V.start_addr (V.output_info s) -> 0 <= V.io_size (V.output_info s) ->
  V.start_addr (V.output_info s) + V.io_size (V.output_info s) < b64 ->
  X.TestVM_output_tape p (vm_of s) = option_map (map Int) (V.output_tape (chk p) s).
Proof.
  intros p s T A B C. pose proof T as (TR & TP & TO & TA). unfold X.TestVM_output_tape, V.output_tape. cbv zeta. sflds.
  cbn [out_of X.OutputInfo_size X.OutputInfo_start_addr]. unfold for_range, lit, val. rewrite Z.sub_0_r.
  change 0 with (Z.of_nat 0) at 1.
  rewrite (push_loop Int (fun i => V.read_byte (chk p) (V.ram s) (V.start_addr (V.output_info s) + Z.of_nat i))).
  - destruct (V.mapM _ _); reflexivity.
  - intros i l I. rewrite uadd_small by lia. cbv zeta.
    change (cast USize (@Int USize (V.start_addr (V.output_info s) + Z.of_nat i))) with (@Int USize (V.start_addr (V.output_info s) + Z.of_nat i)).
    rewrite (proj1 (read_byte_eq p true (V.ram s) (V.start_addr (V.output_info s) + Z.of_nat i) TA ltac:(unfold usize_val; lia))).
    destruct (V.read_byte _ _ _); reflexivity.
Qed.
