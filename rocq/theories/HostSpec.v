(** * What the settings mean, and what the host program returns *)
Require Import ZArith List Bool.
From Verif Require Import Isa EvalSpec ExactSpec ShadowSpec RefSpec.
Import ListNotations.
Open Scope Z_scope.

(** ** settings *)
(** the number written in decimal *)
Fixpoint decimal (ds : list Z) : Z :=
  match ds with [] => 0 | d :: r => (d - 48) * 10 ^ Z.of_nat (length r) + decimal r end.
(** [s] writes [n]: digits, at least one, perhaps after a plus sign; [n] fits 64 bits *)
Definition writes (s : list Z) (n : Z) : Prop :=
  exists ds, (s = ds \/ s = 43 :: ds) /\ ds <> [] /\ Forall (fun c => 48 <= c <= 57) ds /\ n = decimal ds /\ n < 2 ^ 64.
(** "1", or "true" in any mixture of upper and lower case *)
Definition says_yes (s : list Z) : Prop :=
  s = [49] \/ exists t r u e, s = [t; r; u; e] /\ (t = 84 \/ t = 116) /\ (r = 82 \/ r = 114) /\ (u = 85 \/ u = 117) /\ (e = 69 \/ e = 101).

(** ** the host program *)
(** little-endian words of [n] bytes starting at [a] *)
Definition words_at (m : Z -> Z) (a : Z) (n : nat) : list Z :=
  map (fun k => word_of (fun j => m (a + 4 * Z.of_nat k + j))) (seq 0 n).
(** byte [a] (modulo 4096) of a RAM of 1024 words *)
Definition ram_byte (ram : Z -> Z) (a : Z) : Z := byte (a mod 4096 mod 4) (ram (a mod 4096 / 4)).
Definition understood (w : Z) : bool := match action_of w with Some _ => true | None => false end.

(** [rom], [ram]: the image's bytes; RAM is at [off]; [inp] and [out]: start and
    size of the two tapes.  The result is the output of the reference machine if
    the other machine has the same, otherwise a panic: with [debug] the strict
    shadow machine of C63, without it the exact machine of C59. *)
Definition host_spec (chk debug : bool) (threads : Z) (cycles : nat) (off : Z) (rom ram : list Z) (inp out : Z * Z)
    (tape : list Z) : option (list Z) :=
  let size := Z.of_nat (length rom) in
  let prog := words_at (bytes_from 0 rom) 0 (Z.to_nat (size / 4)) in
  let data := words_at (start_mem off ram (fst inp) tape) off 1024 in
  let rb := Z.to_nat (Z.log2_up (size / 4)) in
  if (0 <? size) && (size mod 4 =? 0) && forallb understood prog &&
     ((0 <? threads) || Nat.eqb cycles 0) && (negb chk || (2 ^ 24 * threads <? 2 ^ 64))
  then match ref_session chk (0, size) (off, 4096) rom ram inp out cycles tape,
             (if debug then option_map s_ram (sh_run true 1024 prog cycles (sh_start data))
              else Some (q_ram (q_run rb 10 prog cycles (q_start data)))) with
       | Some o, Some r =>
           if list_eq_dec Z.eq_dec o (map (fun i => ram_byte r (fst out + Z.of_nat i - off)) (seq 0 (Z.to_nat (snd out))))
           then Some o else None
       | _, _ => None
       end
  else None.
