(** * Properties C01-C05: instruction words *)
Require Import ZArith Lia Bool List.
From Verif Require Import Word Isa Codec CodecSpec CodecFacts DecodeSpec DecodeFacts DecodeAccept.
Import ListNotations.
Open Scope Z_scope.

(** C01.  Writing an immediate into any word of a format that carries one
    never panics; reading it back gives the cut, sign-extended immediate; no
    bit outside the immediate field moves. *)
Theorem C01_imm_round_trip :
  forall (dbg : bool) (w imm : Z) (f : fmt),
    word w -> word imm -> format w = Some f ->
    exists w', set_imm dbg w imm = Some w' /\ word w' /\
      get_imm dbg w' = Some (imm_cut f imm) /\
      (forall n, 0 <= n < 32 -> imm_bit f n = false -> Z.testbit w' n = Z.testbit w n).
Proof. exact imm_round_trip. Qed.
Print Assumptions C01_imm_round_trip.
(* a BEQ word, immediate -6: reads back as -6 = 0xFFFFFFFA *)
Example C01_case :
  format 0x00B50063 = Some FmtB /\ set_imm true 0x00B50063 0xFFFFFFFA = Some 0xFEB50DE3 /\
  get_imm true 0xFEB50DE3 = Some 0xFFFFFFFA /\ imm_cut FmtB 0xFFFFFFFA = 0xFFFFFFFA.
Proof. vm_compute. auto. Qed.
(* JAL cuts to 21 bits: bit 20 is the sign *)
Example C01_case2 : imm_cut FmtJ 0x00100001 = 0xFFF00000. Proof. reflexivity. Qed.

(** Reading an immediate never writes; what is read is the ISA immediate of the
    word (this fixes the meaning of the bits, which a round trip alone does not). *)
Theorem C01_imm_is_isa :
  forall (dbg : bool) (w : Z) (f : fmt),
    word w -> format w = Some f ->
    get_imm dbg w = Some
      match f with
      | FmtI => to_word (imm_I w) | FmtSh => imm_sh w | FmtS => to_word (imm_S w)
      | FmtB => to_word (imm_B w) | FmtU => imm_U w | FmtJ => to_word (imm_J w)
      end.
Proof. exact get_imm_isa. Qed.
Print Assumptions C01_imm_is_isa.

(** C02. *)
Theorem C02_fields_independent :
  forall (dbg : bool) (f : field) (w v w' : Z),
    word w -> word v -> setter dbg f w v = Some w' ->
    word w' /\
    fget f w' = v mod 2 ^ f_len f /\
    (forall g, disjoint f g -> fget g w' = fget g w) /\
    (forall n, 0 <= n < 32 -> ~ (f_lo f <= n < f_lo f + f_len f) ->
       Z.testbit w' n = Z.testbit w n).
Proof. exact setter_ok. Qed.
Print Assumptions C02_fields_independent.
Theorem C02_getters_read_fields :
  forall (dbg : bool) (f : field) (w x : Z),
    word w -> getter dbg f w = Some x -> x = fget f w.
Proof. exact getter_ok. Qed.
Print Assumptions C02_getters_read_fields.
(** in release builds no accessor panics *)
Theorem C02_release_total :
  forall f w v, setter false f w v <> None /\ getter false f w <> None.
Proof. exact accessors_total. Qed.
Print Assumptions C02_release_total.
Example C02_case : (* writing rd := 37 (mod 32 = 5) in an ADD word *)
  setter true Frd 0x00B50533 37 = Some 0x00B502B3 /\ fget Frd 0x00B502B3 = 5 /\
  fget Frs2 0x00B502B3 = 11 /\ disjoint Frd Frs2.
Proof. vm_compute. repeat split. left. discriminate. Qed.

(** C03. *)
Theorem C03_decoder_follows_isa :
  forall (dbg : bool) (i : instr),
    legal i -> word (encode i) /\ decoded dbg (encode i) (ops_of i) (regs_of i) (imm_of i).
Proof. exact decode_legal. Qed.
Print Assumptions C03_decoder_follows_isa.
Example C03_case :
  legal (BRANCH GEU 5 6 (-8)) /\ encode (BRANCH GEU 5 6 (-8)) = 0xFE62FCE3 /\
  get_opid true 0xFE62FCE3 = Some (RNONE, MNONE, PBGEU).
Proof. vm_compute. repeat split; discriminate. Qed.

(** C04.  The full statement would be
    [forall dbg w, word w -> accepted dbg w -> legal_word w]; it is false. *)
Theorem C04_illegal_words_refuted :
  exists w, word w /\ accepted true w /\ ~ legal_word w.
Proof. exact illegal_accepted. Qed.
Print Assumptions C04_illegal_words_refuted.
(** The exact set of accepted words: RV32IM plus [lenient]. *)
Theorem C04_accepted_exactly :
  forall dbg w, word w -> (accepted dbg w <-> legal_word w \/ lenient w).
Proof. exact accepted_iff. Qed.
Print Assumptions C04_accepted_exactly.
Theorem C04_lenient_disjoint : forall w, legal_word w -> ~ lenient w.
Proof. exact lenient_disjoint. Qed.
Print Assumptions C04_lenient_disjoint.
(** what the wrongly accepted words are executed as *)
Theorem C04_lenient_meaning :
  forall dbg w o r imm, word w -> lenient w -> decoded dbg w o r imm ->
    (fld 6 0 w = 19 /\ o = (RSLLI, MNONE, PNONE)) \/
    (fld 6 0 w = 103 /\ o = (RJALR, MNONE, PJALR)) \/
    (fld 6 0 w = 115 /\ o = (RNONE, MNONE, PNONE) /\ r = (0, 0, 0) /\ imm = 0).
Proof. exact lenient_meaning. Qed.
Print Assumptions C04_lenient_meaning.

(** C05. *)
Theorem C05_parser_keeps_fields :
  forall (dbg : bool) (ws : list Z) (p : parser) (i : nat) (w : Z),
    Forall word ws -> parser_add_all dbg parser_new ws = Some p -> nth_error ws i = Some w ->
    exists o1 o2 o3 rs2 rs1 rd imm,
      decoded dbg w (o1, o2, o3) (rs2, rs1, rd) imm /\
      parser_get p i = Some (imm, rs2, rs1, rd, rd_id o1, ram_id o2, pc_id o3) /\
      parser_get_raw p i = Some w.
Proof. exact parser_lookup. Qed.
Print Assumptions C05_parser_keeps_fields.
(** it builds exactly when every word is accepted *)
Theorem C05_parser_accepts :
  forall dbg ws, (exists p, parser_add_all dbg parser_new ws = Some p) <-> Forall (accepted dbg) ws.
Proof. exact parser_iff. Qed.
Print Assumptions C05_parser_accepts.
(** adding one more instruction leaves the earlier entries alone *)
Theorem C05_add_keeps_earlier :
  forall (dbg : bool) (ws : list Z) (p p' : parser) (w : Z) (i : nat),
    parser_add_all dbg parser_new ws = Some p -> parser_add dbg p w = Some p' -> (i < length ws)%nat ->
    parser_get p' i = parser_get p i /\ parser_get_raw p' i = parser_get_raw p i.
Proof. exact parser_add_keeps. Qed.
Print Assumptions C05_add_keeps_earlier.
Example C05_case :
  exists p, parser_add_all true parser_new [0x00B50533; 0xFE62FCE3] = Some p /\
    parser_get p 1 = Some (0xFFFFFFF8, 6, 5, 0, 0, 0, 10).
Proof. eexists. split; vm_compute; reflexivity. Qed.
