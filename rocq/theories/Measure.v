(** * Measured noise

    [Memory::noise] of fhevm/src/memory.rs, with which a checked run prints the
    noise of the registers and of RAM after each cycle
    (fhevm/src/interpreter.rs:1225-1238, 1363-1374).  A ciphertext decrypts to
    its phase (see [Noise.v]).  Simplified: instead of the logarithm of a
    deviation the deviation itself is returned; 0 stands for both log2(0) and
    the start value f64::MIN (the maximum of the two is f64::MIN). *)
Require Import ZArith List Bool.
Require Import Verif.Word Verif.Glwe Verif.Par Verif.EncMem Verif.Noise.
Import ListNotations.
Open Scope Z_scope.

(** distance to 0 on the torus *)
Definition tdist (q x : Z) : Z := Z.min (x mod q) ((- x) mod q).
(** [ct.noise(module, &mut pt, ..).max()]: the largest difference between the
    phase and the encoded plaintext *)
Definition ct_noise (t : torus) (phase pt : list Z) : Z :=
  fold_right Z.max 0 (map (fun xy => tdist (t_q t) (fst xy - t_delta t * snd xy)) (combine phase pt)).

Section Measure.
Context {C : Type}.
Variables (log : nat) (t : torus) (phase : C -> list Z).
(** memory.rs:527-539; [buf] is `data_i64`.  Unlike in [encrypt_sk] (475) it
    is not cleared: where a chunk is shorter than the ring, it keeps what was
    there before. *)
Fixpoint rows_noise (buf : list Z) (chunks : list (list Z)) (cts : list C) : Z :=
  match chunks, cts with
  | c :: cs, x :: xs =>
      let buf' := zip_over (fun x _ => x) c buf in
      Z.max (ct_noise t (phase x) buf') (rows_noise buf' cs xs)
  | _, _ => 0
  end.
(** memory.rs:510-540; [scratch]: contents of the slice taken from the scratch
    space (522) *)
Definition ba_noise (scratch : list Z) (b : bitarray C) (data : list Z) : Z :=
  rows_noise scratch (chunks_of (length data) (ring log) data) (ba_data b).
(** memory.rs:110-138; [scratch i]: the slice for plane [i] *)
Definition mem_noise (scratch : nat -> list Z) (m : memory C) (data : list Z) : option (list Z) :=
  let planes := length (m_planes m) in
  assert (0 <? planes)%nat;
  assert (length data / planes <=? m_size m)%nat;
  let bits_of i := zip_over (fun y _ => Z.b2z (Z.testbit y (Z.of_nat i))) data (repeat 0 (m_size m)) in
  Some (map (fun ib => ba_noise (scratch (fst ib)) (snd ib) (bits_of (fst ib)))
          (combine (seq 0 planes) (m_planes m))).
End Measure.
