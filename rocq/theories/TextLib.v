(** * The library the translated text is run with

    An instance of [RustLib.library] made of the operations [alg] of Glwe.v,
    over which the model of the encrypted machine is written, and of the sizes
    of scratch space Scratch.v takes as parameters.  What the instance adds:

    - ciphertexts carry their layout, words and prepared words too, so that the
      sizes of scratch space can depend on them, as they do in the library;
    - a view of scratch space is the number of bytes in it, and an operation
      given less than it needs panics;
    - a ciphertext taken from scratch space holds anything ([garbage]).

    It cites no line of the repository: it stands for the library. *)
Require Import ZArith List Bool.
From Verif Require Import Rust RustIter RustLib.
Require Verif.Word Verif.Glwe Verif.Scratch.
Import ListNotations.
Open Scope Z_scope.

(** bytes of scratch space, as functions of the layouts: [GL] of a ciphertext,
    [KL] of an automorphism key, [SL] of a prepared word *)
Record space (GL KL SL : Type) := {
  s_glwe : GL -> Z;               (* GLWE::bytes_of_from_infos *)
  s_rotate : Z;                   (* glwe_rotate_inplace *)
  s_trace : GL -> GL -> KL -> Z;  (* glwe_trace *)
  s_rotation : GL -> SL -> Z;     (* glwe_blind_rotation_inplace *)
  s_retrieval : GL -> SL -> Z;    (* glwe_blind_retrieval_statefull, .._rev *)
  s_select : GL -> SL -> Z;       (* GLWEBlindRetriever::retrieve *)
  s_normalize : Z;                (* glwe_normalize_inplace *)
  s_bit : GL -> GL -> KL -> Z;    (* get_bit_glwe *)
  s_pack : GL -> GL -> KL -> Z;   (* FheUint::pack *)
  s_plain : GL -> Z;              (* take_glwe_plaintext *)
  s_encrypt : GL -> Z;            (* encrypt_sk *)
  s_decrypt : GL -> Z             (* decrypt *) }.
Arguments s_glwe {GL KL SL}. Arguments s_rotate {GL KL SL}. Arguments s_trace {GL KL SL}.
Arguments s_rotation {GL KL SL}. Arguments s_retrieval {GL KL SL}. Arguments s_select {GL KL SL}.
Arguments s_normalize {GL KL SL}. Arguments s_bit {GL KL SL}. Arguments s_pack {GL KL SL}.
Arguments s_plain {GL KL SL}. Arguments s_encrypt {GL KL SL}. Arguments s_decrypt {GL KL SL}.

(** the operation runs if it is given the bytes it needs *)
Definition given {A} (avail n : Z) (r : option A) : option A := if n <=? avail then r else None.

Section Lib.
Context {ct pb fu GL KL SL Src : Type}.
Variable A : Verif.Glwe.alg ct pb fu.
Variable sp : space GL KL SL.
(** what a ciphertext, or a number, taken from the scratch space holds *)
Variable garbage : Z -> nat -> ct.
Variable garbage_i64 : Z -> nat -> int I64.
(** what the layout says of the ring; encoding with a precision, and back *)
Variable gl_n : GL -> Z.
Variable enc : Z -> list Z -> ct.
Variable dec : Z -> ct -> list Z.
(** the random source after an encryption *)
Variable next : Src -> Src.

Definition lay {X} (c : GL * X) : GL := fst c.
Definition layout_of (l : list (GL * ct)) (d : GL) : GL := match l with [] => d | c :: _ => fst c end.
(** new contents, the layouts stay *)
Definition relay (old : list (GL * ct)) (new : list ct) : list (GL * ct) :=
  combine (map fst old) new.
Definition nat_of {t} (a : int t) : nat := Z.to_nat (val a).
Definition glwe_of (l : GL) (x : ct) : GL * ct := (l, x).

Definition lib : library := {|
  Module := unit; Keys := KL; Scratch := Z; GLWE := GL * ct; FheUint := GL * fu;
  FheUintPrepared := SL * list pb; GLWEBlindRetriever := unit;
  GLWELayout := GL; GGLWELayout := KL; GGSWLayout := SL;
  GLWEPlaintext := ct; Secret := unit; Source := Src;
  Module_n := fun _ => Int (2 ^ Z.of_nat (Verif.Glwe.log_n A));
  Module_log_n := fun _ => Int (Z.of_nat (Verif.Glwe.log_n A));
  Module_glwe_rotate_tmp_bytes := fun _ => Int (s_rotate sp);
  Module_glwe_trace_tmp_bytes := fun _ r a k => Int (s_trace sp r a k);
  Module_glwe_blind_rotation_tmp_bytes := fun _ r a => Int (s_rotation sp r a);
  Module_glwe_blind_retrieval_tmp_bytes := fun _ r a => Int (s_retrieval sp r a);
  Module_glwe_normalize_tmp_bytes := fun _ => Int (s_normalize sp);
  GLWEBlindRetriever_retrieve_tmp_bytes := fun _ r a => Int (s_select sp r a);
  GLWE_bytes_of_from_infos := fun l => Int (s_glwe sp l);
  GLWE_glwe_layout := fst; FheUint_glwe_layout := fst; FheUintPrepared_ggsw_layout := fst;
  GLWELayout_n := fun l => Int (gl_n l);
  Keys_automorphism_key_infos := fun k => k;
  GLWE_alloc_from_infos := fun l => (l, Verif.Glwe.a_zero A);
  GLWEBlindRetriever_alloc := fun _ _ => tt;
  Scratch_available := fun s => Int s;
  Scratch_split_mut := fun s n size =>
    given s (val n * val size) (Some (repeat (val size) (nat_of n), s - val n * val size));
  Scratch_take_glwe := fun s l => given s (s_glwe sp l) (Some ((l, garbage s 0), s - s_glwe sp l));
  Scratch_take_glwe_slice := fun s n l =>
    given s (val n * s_glwe sp l)
      (Some (map (fun i => (l, garbage s i)) (seq 0 (nat_of n)), s - val n * s_glwe sp l));
  Scratch_take_glwe_plaintext := fun s l => given s (s_plain sp l) (Some (garbage s 0, s - s_plain sp l));
  Scratch_take_slice := fun s n =>
    given s (8 * val n) (Some (map (garbage_i64 s) (seq 0 (nat_of n)), s - 8 * val n));
  Module_glwe_rotate_inplace := fun _ k a s =>
    given s (s_rotate sp) (Some (fst a, Verif.Glwe.a_rot A (val k) (snd a)));
  Module_glwe_trace := fun _ r skip a k s =>
    given s (s_trace sp (fst r) (fst a) k)
      (if val skip =? 0 then Some (fst r, Verif.Glwe.a_trace A (snd a)) else None);
  Module_glwe_add_inplace := fun _ a b => Some (fst a, Verif.Glwe.a_add A (snd a) (snd b));
  Module_glwe_sub_inplace := fun _ a b => Some (fst a, Verif.Glwe.a_sub A (snd a) (snd b));
  Module_glwe_normalize_inplace := fun _ a s => given s (s_normalize sp) (Some a);
  Module_glwe_copy := fun _ r a => Some (fst r, snd a);
  Module_glwe_blind_rotation_inplace := fun _ r a sign rsh mask lsh s =>
    given s (s_rotation sp (fst r) (fst a))
      (if val lsh =? 0
       then option_map (glwe_of (fst r)) (Verif.Glwe.blind_rotate A sign (snd a) (nat_of rsh) (nat_of mask) (snd r))
       else None);
  Module_glwe_blind_retrieval_statefull := fun _ d a rsh mask s =>
    match d with
    | [] => Some []
    | c :: _ => given s (s_retrieval sp (fst c) (fst a))
        (option_map (relay d) (Verif.Glwe.retrieval_statefull A (snd a) (nat_of rsh) (nat_of mask) (map snd d)))
    end;
  Module_glwe_blind_retrieval_statefull_rev := fun _ d a rsh mask s =>
    match d with
    | [] => Some []
    | c :: _ => given s (s_retrieval sp (fst c) (fst a))
        (option_map (relay d) (Verif.Glwe.retrieval_statefull_rev A (snd a) (nat_of rsh) (nat_of mask) (map snd d)))
    end;
  GLWEBlindRetriever_retrieve := fun _ _ r d a rsh s =>
    given s (s_select sp (fst r) (fst a))
      (option_map (fun x => (tt, (fst r, x))) (Verif.Glwe.blind_retrieve A (map snd d) (snd a) (nat_of rsh)));
  FheUint_pack := fun r _ l k s =>
    given s (s_pack sp (fst r) (layout_of l (fst r)) k) (Some (fst r, Verif.Glwe.a_pack A (map snd l)));
  FheUint_get_bit_glwe := fun w _ i r k s =>
    given s (s_bit sp (fst r) (fst w) k) (Some (fst r, Verif.Glwe.a_bit A (snd w) (nat_of i)));
  GLWEPlaintext_encode_vec_i64 := fun _ d k => Some (enc (val k) (map val d));
  GLWEPlaintext_decode_vec_i64 := fun x d k => Some (firstn (length d) (map Int (dec (val k) x)));
  GLWE_encrypt_sk := fun c _ x _ xa xe s => given s (s_encrypt sp (fst c)) (Some ((fst c, x), next xa, next xe));
  GLWE_decrypt := fun c _ _ _ s => given s (s_decrypt sp (fst c)) (Some (snd c));
  u32_bit := fun w i => Int (Z.b2z (Z.testbit (val w) (val i))) |}.

(** the amounts of Scratch.v: a memory with entries of layout [l], a word of
    layout [wl], an address of layout [sl], keys of layout [kl] *)
Definition costs_at (l wl : GL) (sl : SL) (kl : KL) : Verif.Scratch.costs := {|
  Verif.Scratch.k_glwe := s_glwe sp l;
  Verif.Scratch.k_word := s_glwe sp wl;
  Verif.Scratch.k_select := s_select sp l sl;
  Verif.Scratch.k_rotation := s_rotation sp l sl;
  Verif.Scratch.k_retrieval := s_retrieval sp l sl;
  Verif.Scratch.k_trace := s_trace sp l l kl;
  Verif.Scratch.k_normalize := s_normalize sp;
  Verif.Scratch.k_rotate := s_rotate sp;
  Verif.Scratch.k_bit := s_bit sp wl wl kl;
  Verif.Scratch.k_pack := s_pack sp wl wl kl |}.
End Lib.
