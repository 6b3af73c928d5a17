(** * C109: the file that the host program loads is the guest it asked for *)
Require Import ZArith List Bool String Ascii Lia.
Require Import Verif.Word Verif.Build Verif.BuildSpec.
Import ListNotations.
Open Scope string_scope.

Lemma split_clean : forall c s, has c s = false -> split_at c s = [s].
Proof.
  intros c s. induction s as [|d s IH]; intros H; [reflexivity|]. cbn [has split_at] in *.
  apply orb_false_iff in H. destruct H as [E H]. now rewrite E, (IH H).
Qed.
Lemma split_step : forall c s r, has c s = false -> split_at c (s ++ String c r) = s :: split_at c r.
Proof.
  intros c s r. induction s as [|d s IH]; intros H; cbn [has split_at append] in *.
  - now rewrite Ascii.eqb_refl.
  - apply orb_false_iff in H. destruct H as [E H]. now rewrite E, (IH H).
Qed.
Lemma split_concat : forall c l, l <> [] -> Forall (fun s => has c s = false) l ->
  split_at c (concat (String c "") l) = l.
Proof.
  intros c l N F. induction F as [|s l E F IH]; [now destruct N|].
  destruct l as [|t l]; [now apply split_clean|].
  change (concat (String c "") (s :: t :: l)) with (s ++ String c (concat (String c "") (t :: l))).
  rewrite split_step by exact E. now rewrite IH.
Qed.
Lemma has_app : forall c a b, has c (a ++ b) = has c a || has c b.
Proof. intros c a b. induction a as [|d a IH]; cbn [has append]; [reflexivity|]. now rewrite IH, orb_assoc. Qed.

(** ** what cargo is asked for *)
Definition wanted (linker program name : string) : request :=
  Request program program "riscv32i-unknown-none-elf" "release" ("/tmp/vm-experiments/" ++ name)
    ["-C"; "link-arg=-T" ++ linker; "-C"; "panic=abort"].

(** for every path without U+001F, and whatever else is in it (spaces, quotes):
    four flags, one of them the linker script *)
Theorem C109_request : forall cargo linker program name, has (ascii_of_nat 31) linker = false ->
  understood (build_command cargo linker program name) = Some (wanted linker program name) /\
  artifact (wanted linker program name) = elf_path program name.
Proof.
  intros cargo linker program name H. split; [|reflexivity].
  unfold understood, build_command, wanted. cbn [c_args c_envs].
  change (negb (String.eqb "build" "build")) with false. cbv iota.
  change (var "CARGO_ENCODED_RUSTFLAGS" (build_envs linker)) with (Some (concat (String (ascii_of_nat 31) "") (rust_flags linker))).
  cbn [opt String.eqb Ascii.eqb Bool.eqb]. cbv iota. rewrite split_concat; [reflexivity|discriminate|].
  repeat constructor. rewrite has_app. now rewrite H.
Qed.
Print Assumptions C109_request.

(** ** the whole function: for every cargo, the binary of the request and never an older file;
    a panic when the script, the variable CARGO or the binary is missing *)
Theorem C109_build : forall compile s manifest_dir program name fs,
  cargo_like compile (s_run s) ->
  (forall l, s_canonicalize s (linker_script manifest_dir) = Some l -> has (ascii_of_nat 31) l = false) ->
  option_map fst (build s manifest_dir program name fs) =
  match s_canonicalize s (manifest_dir ++ "/linker-script/default.x"), s_env s "CARGO" with
  | Some linker, Some _ => compile (wanted linker program name)
  | _, _ => None
  end.
Proof.
  intros compile s manifest_dir program name fs C L. unfold build.
  change (manifest_dir ++ "/linker-script/default.x") with (linker_script manifest_dir).
  destruct (s_canonicalize s (linker_script manifest_dir)) as [linker|]; [|reflexivity].
  destruct (s_env s "CARGO") as [cargo|]; [|reflexivity].
  destruct (C109_request cargo linker program name (L linker Logic.eq_refl)) as [U A].
  specialize (C _ fs _ U). destruct (compile (wanted linker program name)) as [elf|].
  - destruct C as (fs' & -> & E). rewrite <- A, E. reflexivity.
  - destruct C as (fs' & ->). reflexivity.
Qed.
Print Assumptions C109_build.

(** with U+001F in the path of the repository the flags are others *)
Theorem C109_separator_refuted : exists cargo linker program name r,
  understood (build_command cargo linker program name) = Some r /\ r_flags r <> rust_flags linker.
Proof.
  exists "cargo", (String (ascii_of_nat 31) "x"), "guest", "out". eexists.
  split; [vm_compute; reflexivity|]. vm_compute. discriminate.
Qed.
Print Assumptions C109_separator_refuted.

(** ** where the files go: names without "/" do not collide *)
Lemma app_cancel : forall a b c, a ++ b = a ++ c -> b = c.
Proof. induction a as [|x a IH]; intros b c H; [exact H|]. injection H. apply IH. Qed.
Lemma first_slash : forall a b c d, has "/" a = false -> has "/" b = false ->
  a ++ String "/" c = b ++ String "/" d -> a = b /\ c = d.
Proof.
  induction a as [|x a IH]; intros b c d A B E; destruct b as [|y b]; cbn [append] in E.
  - injection E as E. now split.
  - injection E as E _. subst y. cbn [has] in B. rewrite Ascii.eqb_refl in B. discriminate.
  - injection E as E _. subst x. cbn [has] in A. rewrite Ascii.eqb_refl in A. discriminate.
  - injection E as -> E. cbn [has] in A, B. apply orb_false_iff in A, B.
    destruct (IH b c d (proj2 A) (proj2 B) E) as [-> ->]. now split.
Qed.
Theorem C109_separate : forall program name program' name', has "/" name = false -> has "/" name' = false ->
  (elf_path program name = elf_path program' name' <-> program = program' /\ name = name').
Proof.
  intros p n p' n' N N'. split; [|now intros [-> ->]]. unfold elf_path, destination. intros E.
  change (("/tmp/vm-experiments/" ++ n) ++ "/" ++ target ++ "/" ++ profile ++ "/" ++ p)
    with ("/tmp/vm-experiments/" ++ (n ++ String "/" (target ++ "/" ++ profile ++ "/" ++ p))) in E.
  change (("/tmp/vm-experiments/" ++ n') ++ "/" ++ target ++ "/" ++ profile ++ "/" ++ p')
    with ("/tmp/vm-experiments/" ++ (n' ++ String "/" (target ++ "/" ++ profile ++ "/" ++ p'))) in E.
  apply app_cancel in E. destruct (first_slash _ _ _ _ N N' E) as [-> E'].
  change (target ++ "/" ++ profile ++ "/" ++ p) with ("riscv32i-unknown-none-elf/release/" ++ p) in E'.
  change (target ++ "/" ++ profile ++ "/" ++ p') with ("riscv32i-unknown-none-elf/release/" ++ p') in E'.
  apply app_cancel in E'. now split.
Qed.
Print Assumptions C109_separate.
(** with "/" they can *)
Theorem C109_separate_refuted : exists program name program' name',
  (program, name) <> (program', name') /\ elf_path program name = elf_path program' name'.
Proof.
  exists "g", "x/riscv32i-unknown-none-elf/release", "riscv32i-unknown-none-elf/release/g", "x".
  split; [discriminate|vm_compute; reflexivity].
Qed.
Print Assumptions C109_separate_refuted.

(** ** the four host programs: the package has the same name in all of them, the files are
    different all the same (compiler-tests/uniswap/src/main.rs:51-52, string-match/src/main.rs:52-53,
    otc/src/main.rs:27-28, template/src/main.rs:30-31) *)
Definition host_builds : list (string * string) := [("guest", "uniswap"); ("guest", "string-match"); ("guest", "otc"); ("guest", "template")].
Theorem C109_hosts : NoDup (map (fun b => elf_path (fst b) (snd b)) host_builds).
Proof. cbn [map host_builds]. repeat (constructor; [vm_compute; intuition discriminate|]). constructor. Qed.
Print Assumptions C109_hosts.

(** a cargo that can build one package, and a file left over from another build *)
Definition toy_compile (r : request) : option (list Z) :=
  if String.eqb (r_package r) "guest" && String.eqb (r_triple r) "riscv32i-unknown-none-elf" && Nat.eqb (List.length (r_flags r)) 4
  then Some [127; 69; 76; 70]%Z else None.
Definition toy_run (c : command) (fs : files) : option (bool * files) :=
  match understood c with
  | Some r => match toy_compile r with
              | Some elf => Some (true, fun p => if String.eqb p (artifact r) then Some elf else fs p)
              | None => Some (false, fs)
              end
  | None => None
  end.
Definition toy_system : system := System (fun p => Some ("/home/me/my repo" ++ p)) (fun v => if String.eqb v "CARGO" then Some "/usr/bin/cargo" else None) toy_run.
Lemma toy_cargo : cargo_like toy_compile toy_run.
Proof.
  intros c fs r U. unfold toy_run. rewrite U. destruct (toy_compile r).
  - eexists. split; [reflexivity|]. cbn beta. now rewrite String.eqb_refl.
  - eexists. reflexivity.
Qed.
Example C109_case :
  cargo_like toy_compile (s_run toy_system) /\ has (ascii_of_nat 31) "/home/me/my repo/compiler/linker-script/default.x" = false /\
  option_map fst (build toy_system "/compiler" "guest" "uniswap" (fun _ => Some [0%Z])) = Some [127; 69; 76; 70]%Z /\
  option_map fst (build toy_system "/compiler" "other" "uniswap" (fun _ => Some [0%Z])) = None /\
  elf_path "guest" "uniswap" = "/tmp/vm-experiments/uniswap/riscv32i-unknown-none-elf/release/guest".
Proof. split; [exact toy_cargo|]. repeat split; vm_compute; reflexivity. Qed.
