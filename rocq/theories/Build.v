(** * Building a guest

    compiler/src/lib.rs: the host program runs cargo on the guest and reads the
    file that cargo made.  Paths and arguments are strings; the environment (the
    variable CARGO, the file system, cargo itself) is a parameter.  Writing
    cargo's messages to stderr is left out. *)
Require Import ZArith List Bool String Ascii.
Require Import Verif.Word.
Import ListNotations.
Open Scope string_scope.

(** std::process::Command: the program, the variables set, the arguments *)
Record command := Command { c_bin : string; c_envs : list (string * string); c_args : list string }.
(** the files there are *)
Definition files := string -> option (list Z).
(** the machine the host program runs on.  [env "CARGO"] is `std::env::var`;
    [run] is `output()`: whether it succeeded, and the files afterwards *)
Record system := System {
  s_canonicalize : string -> option string;
  s_env : string -> option string;
  s_run : command -> files -> option (bool * files) }.

(** the character U+001F, between the flags of CARGO_ENCODED_RUSTFLAGS *)
Definition unit_separator : string := String (ascii_of_nat 31) "".

(** compiler/src/lib.rs:26-27 *)
Definition target : string := "riscv32i-unknown-none-elf".
Definition profile : string := "release".
(** lib.rs:30-33; [manifest_dir] is a constant of the build of the compiler, and no
    directory ends in "/" *)
Definition linker_script (manifest_dir : string) : string := manifest_dir ++ "/" ++ "linker-script/default.x".
(** lib.rs:35-41 *)
Definition rust_flags (linker : string) : list string := ["-C"; "link-arg=-T" ++ linker; "-C"; "panic=abort"].
(** lib.rs:42 *)
Definition build_envs (linker : string) : list (string * string) :=
  [("CARGO_ENCODED_RUSTFLAGS", concat unit_separator (rust_flags linker))].
(** lib.rs:45 *)
Definition destination (name : string) : string := "/tmp/vm-experiments/" ++ name.
(** lib.rs:47-63 *)
Definition build_command (cargo linker program name : string) : command :=
  {| c_bin := cargo; c_envs := build_envs linker;
     c_args := ["build"; "--profile"; profile; "--target"; target; "--package"; program; "--bin"; program;
                "--target-dir"; destination name] |}.
(** lib.rs:73-79 *)
Definition elf_path (program name : string) : string :=
  destination name ++ "/" ++ target ++ "/" ++ profile ++ "/" ++ program.

(** lib.rs:24-82 (`CompileOpts::new`, lib.rs:18-22, keeps the name of the program) *)
Definition build (s : system) (manifest_dir program name : string) (fs : files) : option (list Z * files) :=
  do linker <- s_canonicalize s (linker_script manifest_dir);
  do cargo <- s_env s "CARGO";
  do (ok, fs') <- s_run s (build_command cargo linker program name) fs;
  assert ok;
  do elf <- fs' (elf_path program name);
  Some (elf, fs').
