(** * What cargo does with a build command (specification)

    From cargo's documentation: options come as pairs, the flags of
    CARGO_ENCODED_RUSTFLAGS are separated by U+001F, and the binary is left in
    TARGET-DIR/TRIPLE/PROFILE/NAME where the profile dev has the directory
    debug. *)
Require Import ZArith List Bool String Ascii.
Require Import Verif.Build.
Import ListNotations.
Open Scope string_scope.

Fixpoint split_at (c : ascii) (s : string) : list string :=
  match s with
  | EmptyString => [EmptyString]
  | String d r =>
      if Ascii.eqb c d then EmptyString :: split_at c r
      else match split_at c r with x :: xs => String d x :: xs | [] => [String d EmptyString] end
  end.
Fixpoint has (c : ascii) (s : string) : bool :=
  match s with EmptyString => false | String d r => Ascii.eqb c d || has c r end.

(** the value of an option *)
Fixpoint opt (name : string) (args : list string) : option string :=
  match args with
  | n :: v :: r => if String.eqb n name then Some v else opt name r
  | _ => None
  end.
Fixpoint var (name : string) (envs : list (string * string)) : option string :=
  match envs with
  | [] => None
  | (n, v) :: r => if String.eqb n name then Some v else var name r
  end.

(** what is asked for: package, binary, triple, profile, target directory, flags *)
Record request := Request {
  r_package : string; r_bin : string; r_triple : string; r_profile : string; r_dir : string; r_flags : list string }.
Definition understood (c : command) : option request :=
  match c_args c with
  | sub :: opts =>
      if negb (String.eqb sub "build") then None else
      match opt "--package" opts, opt "--bin" opts, opt "--target" opts, opt "--profile" opts, opt "--target-dir" opts,
            var "CARGO_ENCODED_RUSTFLAGS" (c_envs c) with
      | Some p, Some b, Some t, Some f, Some d, Some v => Some (Request p b t f d (split_at (ascii_of_nat 31) v))
      | _, _, _, _, _, _ => None
      end
  | [] => None
  end.
Definition profile_dir (p : string) : string :=
  if String.eqb p "dev" || String.eqb p "test" then "debug" else if String.eqb p "bench" then "release" else p.
Definition artifact (r : request) : string :=
  r_dir r ++ "/" ++ r_triple r ++ "/" ++ profile_dir (r_profile r) ++ "/" ++ r_bin r.

(** [compile] says what binary a request gives, if it can be built.  Cargo
    succeeds exactly when it can, and leaves the binary at its place. *)
Definition cargo_like (compile : request -> option (list Z)) (run : command -> files -> option (bool * files)) : Prop :=
  forall c fs r, understood c = Some r ->
    match compile r with
    | Some elf => exists fs', run c fs = Some (true, fs') /\ fs' (artifact r) = Some elf
    | None => exists fs', run c fs = Some (false, fs')
    end.
