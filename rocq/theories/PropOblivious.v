(** * The server's work does not depend on the data (C45) *)
Require Import ZArith List Bool.
Require Import Verif.Word Verif.Isa Verif.Codec Verif.RunSpec Verif.Glwe Verif.EncMem Verif.EncVM Verif.Expr Verif.ObliviousFacts.
Require Verif.EncSpec Verif.PropEnc Verif.Loader Verif.PropLoad.
Import ListNotations.

(** For every implementation of the library, every machine and every number of
    cycles run without the debugging key: the outcome is obtained by carrying
    out one plan, a fixed list of library operations on named ciphertext
    positions.  The plan is computed from the public part alone (ring degree,
    sizes, state flags, cycle number, threads and schedule); in particular
    whether the run panics is public. *)
Theorem C45_one_plan :
  forall log chk es (p : evm unit unit unit), exists pl : option (evm cexp pexp fexp),
    forall (ct pb fu : Type) (B : alg ct pb fu) (v : evm ct pb fu), log_n B = log -> public v = p ->
      option_map without_shadow (ecycles B None chk es v) = option_map (carry_out B v) pl.
Proof. intros log chk es p. exists (plan log chk es p). intros ct pb fu B v <- <-. apply run_is_plan. Qed.
Print Assumptions C45_one_plan.
(** Two machines with equal public parts: both runs panic or neither does, and
    the public parts stay equal. *)
Theorem C45_public_stays_equal :
  forall (ct pb fu : Type) (B : alg ct pb fu) chk es v w, public v = public w ->
    option_map public (ecycles B None chk es v) = option_map public (ecycles B None chk es w).
Proof. intros ct pb fu B chk es v w E. rewrite !public_run, E. reflexivity. Qed.
Print Assumptions C45_public_stays_equal.
(** Programs of the same length with any contents and inputs start with equal
    public parts. *)
Theorem C45_same_length_same_public :
  forall log dbg debug dbg' debug' rw aw p ram v p' ram' v',
    EncSpec.load log dbg debug rw aw p ram = Some v -> EncSpec.load log dbg' debug' rw aw p' ram' = Some v' ->
    public v = public v'.
Proof. exact load_same_public. Qed.
Print Assumptions C45_same_length_same_public.

(** two different images of equal size, and the plan of a cycle on them *)
Definition ev_of (o : Z) : option (evm poly bool (list Z)) :=
  option_map Loader.ev_vm (Loader.encrypted_vm 6 true true false (PropLoad.ex_ph o 8) PropLoad.ex_tape 2).
Example C45_case : exists v w, ev_of 0 = Some v /\ ev_of 16 = Some w /\ v <> w /\ public v = public w /\
  plan 6 true [PropEnc.ex_env 2; PropEnc.ex_env 3] (public v) <> None.
Proof.
  destruct (ev_of 0) as [v|] eqn:V; [|exfalso; vm_compute in V; discriminate V].
  destruct (ev_of 16) as [w|] eqn:W; [|exfalso; vm_compute in W; discriminate W].
  exists v, w. split; [reflexivity|]. split; [reflexivity|].
  assert (D : (match ev_of 0, ev_of 16 with Some v, Some w =>
     if list_eq_dec Z.eq_dec (concat (map (fun b => concat (ba_data b)) (m_planes (e_imm (v_rom v)))))
                             (concat (map (fun b => concat (ba_data b)) (m_planes (e_imm (v_rom w))))) then true else false
     | _, _ => true end) = false) by (vm_compute; reflexivity).
  assert (P : (match ev_of 0 with Some v => match plan 6 true [PropEnc.ex_env 2; PropEnc.ex_env 3] (public v) with Some _ => true | None => false end
     | None => false end) = true) by (vm_compute; reflexivity).
  rewrite V in D, P. rewrite W in D. split; [|split].
  - intros ->. destruct (list_eq_dec _ _ _); [discriminate D|contradiction].
  - assert (Q : option_map public (ev_of 0) = option_map public (ev_of 16)) by (vm_compute; reflexivity).
    rewrite V, W in Q. cbn in Q. congruence.
  - intros N. rewrite N in P. discriminate P.
Qed.
