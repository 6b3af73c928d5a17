(** * The keys of the machine, translated

    Generated by tools/gen_keys.py from fhevm/src/keys.rs.
    Do not edit.  The operators are those of Rust.v and RustIter.v; the library
    is the record of RustKeys.v. *)
Require Import ZArith List Bool.
From Verif Require Import Rust RustIter RustParams RustKeys.
From Verif Require Import TextParams.
Import ListNotations.
Open Scope Z_scope.
Local Notation u8 := (Rust.int Rust.U8).
Local Notation u16 := (Rust.int Rust.U16).
Local Notation u32 := (Rust.int Rust.U32).
Local Notation u64 := (Rust.int Rust.U64).
Local Notation usize := (Rust.int Rust.USize).
Local Notation i32 := (Rust.int Rust.I32).
Local Notation i64 := (Rust.int Rust.I64).

Section Text.
Variable L : library.
Local Notation Scratch := (RustKeys.Scratch L).
Local Notation ScratchOwned := (RustKeys.ScratchOwned L).
Local Notation Source := (RustKeys.Source L).
Local Notation GLWESecret := (RustKeys.GLWESecret L).
Local Notation LWESecret := (RustKeys.LWESecret L).
Local Notation GLWEAutomorphismKey := (RustKeys.GLWEAutomorphismKey L).
Local Notation GLWEAutomorphismKeyPrepared := (RustKeys.GLWEAutomorphismKeyPrepared L).
Local Notation BDDKey := (RustKeys.BDDKey L).
Local Notation BDDKeyPrepared := (RustKeys.BDDKeyPrepared L).
Local Notation CircuitBootstrappingKeyPrepared := (RustKeys.CircuitBootstrappingKeyPrepared L).
Local Notation GLWESwitchingKeyPrepared := (RustKeys.GLWESwitchingKeyPrepared L).
Local Notation GLWEToLWEKeyPrepared := (RustKeys.GLWEToLWEKeyPrepared L).

(** fhevm/src/keys.rs:33-36 *)
Record VMKeys := mk_VMKeys {
  VMKeys_evk_ram : (list (i64 * GLWEAutomorphismKey));
  VMKeys_bdd_key : BDDKey }.

Definition set_VMKeys_evk_ram (s : VMKeys) (x : (list (i64 * GLWEAutomorphismKey))) : VMKeys :=
  mk_VMKeys x (VMKeys_bdd_key s).

Definition set_VMKeys_bdd_key (s : VMKeys) (x : BDDKey) : VMKeys :=
  mk_VMKeys (VMKeys_evk_ram s) x.

(** fhevm/src/keys.rs:38-41 *)
Record VMKeysPrepared := mk_VMKeysPrepared {
  VMKeysPrepared_atk_glwe : (list (i64 * GLWEAutomorphismKeyPrepared));
  VMKeysPrepared_bdd_key : BDDKeyPrepared }.

Definition set_VMKeysPrepared_atk_glwe (s : VMKeysPrepared) (x : (list (i64 * GLWEAutomorphismKeyPrepared))) : VMKeysPrepared :=
  mk_VMKeysPrepared x (VMKeysPrepared_bdd_key s).

Definition set_VMKeysPrepared_bdd_key (s : VMKeysPrepared) (x : BDDKeyPrepared) : VMKeysPrepared :=
  mk_VMKeysPrepared (VMKeysPrepared_atk_glwe s) x.

(** fhevm/src/keys.rs:44-46 *)
Definition VMKeysPrepared_cbt_infos (p : Rust.profile) (self : VMKeysPrepared) : option CircuitBootstrappingKeyLayout :=
  Some (BDDKeyPrepared_cbt_infos L (VMKeysPrepared_bdd_key self)).

(** fhevm/src/keys.rs:48-50 *)
Definition VMKeysPrepared_ks_glwe_infos (p : Rust.profile) (self : VMKeysPrepared) : option (option GLWESwitchingKeyLayout) :=
  Some (BDDKeyPrepared_ks_glwe_infos L (VMKeysPrepared_bdd_key self)).

(** fhevm/src/keys.rs:52-54 *)
Definition VMKeysPrepared_ks_lwe_infos (p : Rust.profile) (self : VMKeysPrepared) : option GLWEToLWEKeyLayout :=
  Some (BDDKeyPrepared_ks_lwe_infos L (VMKeysPrepared_bdd_key self)).

(** fhevm/src/keys.rs:61-63 *)
Definition VMKeysPrepared_automorphism_key_infos (p : Rust.profile) (self : VMKeysPrepared) : option GGLWELayout :=
  Some (Entries_automorphism_key_infos L (VMKeysPrepared_atk_glwe self)).

(** fhevm/src/keys.rs:65-67 *)
Definition VMKeysPrepared_get_automorphism_key (p : Rust.profile) (self : VMKeysPrepared) (k : i64) : option (option GLWEAutomorphismKeyPrepared) :=
  Some (Entries_get_automorphism_key L (VMKeysPrepared_atk_glwe self) k).

(** fhevm/src/keys.rs:71-94 *)
Definition VMKeysPrepared_alloc (p : Rust.profile) (params : CryptographicParameters) : option VMKeysPrepared :=
  t1 <- CryptographicParameters_module_fn p params ;;
  let module : Module := t1 in
  let gal_els : (list i64) := (GLWE_trace_galois_elements L module) in
  t3 <- CryptographicParameters_evk_ram_infos p params ;;
  let evk_ram_infos : GGLWELayout := t3 in
  t4 <- CryptographicParameters_bdd_key_layout p params ;;
  let bdd_infos : BDDKeyLayout := t4 in
  let atk_glwe : (list (i64 * GLWEAutomorphismKeyPrepared)) := Rust.map_new in
  atk_glwe <- Rust.for_each gal_els (fun gal_el atk_glwe => let atk_glwe := (Rust.insert atk_glwe gal_el (GLWEAutomorphismKeyPrepared_alloc_from_infos L module evk_ram_infos)) in
    Some atk_glwe) atk_glwe ;;
  Some (mk_VMKeysPrepared atk_glwe (BDDKeyPrepared_alloc_from_infos L module bdd_infos)).

(** fhevm/src/keys.rs:98-111 *)
Definition VMKeysPrepared_prepare (p : Rust.profile) (self : VMKeysPrepared) (module : Module) (other : VMKeys) (scratch : Scratch) : option VMKeysPrepared :=
  '(t3, _) <- RustIter.for_mut (VMKeysPrepared_atk_glwe self) (fun '(k, key) _ => t1 <- (Rust.find (VMKeys_evk_ram other) k) ;;
    let other : GLWEAutomorphismKey := t1 in
    t2 <- GLWEAutomorphismKeyPrepared_prepare L key module other scratch ;;
    let key := t2 in
    Some ((k, key), tt)) tt ;;
  let self := (set_VMKeysPrepared_atk_glwe self (RustIter.write_back (VMKeysPrepared_atk_glwe self) t3)) in
  t4 <- BDDKeyPrepared_prepare L (VMKeysPrepared_bdd_key self) module (VMKeys_bdd_key other) scratch ;;
  let self := (set_VMKeysPrepared_bdd_key self t4) in
  Some self.

(** fhevm/src/keys.rs:116-121 *)
Definition VMKeys_new (p : Rust.profile) (evk_ram : (list (i64 * GLWEAutomorphismKey))) (bdd_key : BDDKey) : option VMKeys :=
  Some (mk_VMKeys evk_ram bdd_key).

(** fhevm/src/keys.rs:124-126 *)
Definition VMKeys_evk_ram_fn (p : Rust.profile) (self : VMKeys) : option (list (i64 * GLWEAutomorphismKey)) :=
  Some (VMKeys_evk_ram self).

(** fhevm/src/keys.rs:134-136 *)
Definition VMKeys_set_evk_ram (p : Rust.profile) (self : VMKeys) (evk_ram : (list (i64 * GLWEAutomorphismKey))) : option VMKeys :=
  let self := (set_VMKeys_evk_ram self evk_ram) in
  Some self.

(** fhevm/src/keys.rs:140-194 *)
Definition VMKeys_encrypt_sk (p : Rust.profile) (params : CryptographicParameters) (sk_lwe : LWESecret) (sk_glwe : GLWESecret) (source_xa : Source) (source_xe : Source) : option (Source * Source * VMKeys) :=
  t1 <- CryptographicParameters_module_fn p params ;;
  let module : Module := t1 in
  t2 <- CryptographicParameters_evk_ram_infos p params ;;
  let evk_ram_infos : GGLWELayout := t2 in
  t4 <- CryptographicParameters_bdd_key_layout p params ;;
  t6 <- ScratchOwned_alloc L (RustIter.max (GLWEAutomorphismKey_encrypt_sk_tmp_bytes L module evk_ram_infos) (Module_bdd_key_encrypt_sk_tmp_bytes L module t4)) ;;
  let scratch : ScratchOwned := t6 in
  let gal_els : (list i64) := (GLWE_trace_galois_elements L module) in
  let evk_ram : (list (i64 * GLWEAutomorphismKey)) := Rust.map_new in
  '(source_xa, source_xe, evk_ram) <- Rust.for_each gal_els (fun gal_el '(source_xa, source_xe, evk_ram) => let key : GLWEAutomorphismKey := (GLWEAutomorphismKey_alloc_from_infos L evk_ram_infos) in
    '(t10, t11, t12) <- GLWEAutomorphismKey_encrypt_sk L key module gal_el sk_glwe source_xa source_xe (ScratchOwned_borrow L scratch) ;;
    let key := t10 in
    let source_xa := t11 in
    let source_xe := t12 in
    let evk_ram := (Rust.insert evk_ram gal_el key) in
    Some (source_xa, source_xe, evk_ram)) (source_xa, source_xe, evk_ram) ;;
  t13 <- CryptographicParameters_bdd_key_layout p params ;;
  let bdd_key : BDDKey := (BDDKey_alloc_from_infos L t13) in
  '(t16, t17, t18) <- BDDKey_encrypt_sk L bdd_key module sk_lwe sk_glwe source_xa source_xe (ScratchOwned_borrow L scratch) ;;
  let bdd_key := t16 in
  let source_xa := t17 in
  let source_xe := t18 in
  Some (source_xa, source_xe, (mk_VMKeys evk_ram bdd_key)).

(** fhevm/src/keys.rs:200-208 *)
Definition VMKeysPrepared_get_cbt_key (p : Rust.profile) (self : VMKeysPrepared) : option (CircuitBootstrappingKeyPrepared * (option GLWESwitchingKeyPrepared) * GLWEToLWEKeyPrepared) :=
  Some (BDDKeyPrepared_get_cbt_key L (VMKeysPrepared_bdd_key self)).

End Text.

Arguments mk_VMKeys {L}.
Arguments VMKeys_evk_ram {L}. Arguments set_VMKeys_evk_ram {L}.
Arguments VMKeys_bdd_key {L}. Arguments set_VMKeys_bdd_key {L}.
Arguments mk_VMKeysPrepared {L}.
Arguments VMKeysPrepared_atk_glwe {L}. Arguments set_VMKeysPrepared_atk_glwe {L}.
Arguments VMKeysPrepared_bdd_key {L}. Arguments set_VMKeysPrepared_bdd_key {L}.
