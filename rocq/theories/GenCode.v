(** * The test file that gen-tests writes

    compiler-tests/gen-tests/src/lib.rs turns a loaded program and its test
    cases into the text of a Rust module.  Modelled to the tokens that `quote!`
    makes: `#x` of a usize or a u8 is a literal with the type as suffix, and
    `#( .. ),*` repeats with commas between.  Writing the tokens out with spaces
    and formatting the file (rustfmt) are not modelled. *)
Require Import ZArith List Bool String.
Require Import Verif.Word Verif.Display Verif.Loader.
Require Verif.TestVM.
Module T := Verif.TestVM.
Import ListNotations.
Open Scope Z_scope.

(** token trees; a group carries its opening bracket, a literal its text *)
Inductive tok := Id (s : string) | Pt (s : string) | Lit (s : list Z) | Grp (s : string) (ts : list tok).

(** `Literal::usize_suffixed`, `Literal::u8_suffixed` *)
Definition suffix_usize : list Z := [117; 115; 105; 122; 101].
Definition suffix_u8 : list Z := [117; 56].
Definition lit_usize (n : Z) : tok := Lit (show 10 n ++ suffix_usize).
Definition lit_u8 (b : Z) : tok := Lit (show 10 b ++ suffix_u8).
(** `#( .. ),*` *)
Fixpoint commas (xs : list (list tok)) : list tok :=
  match xs with
  | [] => []
  | [x] => x
  | x :: r => x ++ Pt "," :: commas r
  end.
(** `[#(#bytes),*]` *)
Definition byte_array (bs : list Z) : tok := Grp "[" (commas (map (fun b => [lit_u8 b]) bs)).

(** `pub const NAME: TYPE = VALUE;` *)
Definition item (name : string) (ty val : list tok) : list tok :=
  [Id "pub"; Id "const"; Id name; Pt ":"] ++ ty ++ [Pt "="] ++ val ++ [Pt ";"].
Definition number (name : string) (n : Z) : list tok := item name [Id "usize"] [lit_usize n].
Definition bytes (name : string) (bs : list Z) : list tok :=
  item name [Grp "[" [Id "u8"; Pt ";"; lit_usize (Z.of_nat (List.length bs))]] [byte_array bs].
Definition slices (name : string) (xs : list (list Z)) : list tok :=
  item name [Pt "&"; Grp "[" [Pt "&"; Grp "[" [Id "u8"]]]
    [Pt "&"; Grp "[" (commas (map (fun bs => [Pt "&"; Grp "(" [byte_array bs]]) xs))].

(** lib.rs:99-105: `get_test_cases` in the generated module *)
Definition helper : list tok :=
  [Id "pub"; Id "fn"; Id "get_test_cases"; Grp "(" []; Pt "->"; Id "Vec"; Pt "<";
   Grp "(" [Pt "&"; Id "'static"; Grp "[" [Id "u8"]; Pt ","; Pt "&"; Id "'static"; Grp "[" [Id "u8"]]; Pt ">";
   Grp "{" [Id "TEST_CASE_INPUTS"; Pt "."; Id "iter"; Grp "(" [];
            Pt "."; Id "zip"; Grp "(" [Id "TEST_CASE_OUTPUTS"; Pt "."; Id "iter"; Grp "(" []];
            Pt "."; Id "map"; Grp "(" [Pt "|"; Grp "(" [Pt "&"; Id "input"; Pt ","; Pt "&"; Id "output"]; Pt "|";
                                       Grp "(" [Id "input"; Pt ","; Id "output"]];
            Pt "."; Id "collect"; Grp "(" []]].

(** compiler-tests/gen-tests/src/lib.rs:20-109 *)
Definition codegen_test_cases (ph : phantom) (cases : list (list Z * list Z)) : list tok :=
  number "BOOT_ROM_OFFSET" (b_offset (boot_rom ph)) ++
  number "BOOT_ROM_SIZE" (b_size (boot_rom ph)) ++
  bytes "BOOT_ROM_DATA" (b_data (boot_rom ph)) ++
  number "BOOT_RAM_OFFSET" (b_offset (boot_ram ph)) ++
  number "BOOT_RAM_SIZE" (b_size (boot_ram ph)) ++
  bytes "BOOT_RAM_DATA" (b_data (boot_ram ph)) ++
  number "INPUT_START_ADDR" (T.start_addr (inp_info ph)) ++
  number "INPUT_SIZE" (T.io_size (inp_info ph)) ++
  number "OUTPUT_START_ADDR" (T.start_addr (out_info ph)) ++
  number "OUTPUT_SIZE" (T.io_size (out_info ph)) ++
  number "TEST_CASES_COUNT" (Z.of_nat (List.length cases)) ++
  slices "TEST_CASE_INPUTS" (map fst cases) ++
  slices "TEST_CASE_OUTPUTS" (map snd cases) ++
  helper.

(** compiler-tests/gen-tests/src/guest_test1.rs:45-51 after the build, and
    lib.rs:111-124: the tokens of the file; [None] if the program is not accepted *)
Definition write_test_cases (chk : bool) (e : elf) (cases : list (list Z * list Z)) : option (list tok) :=
  do ph <- from_elf chk e;
  Some (codegen_test_cases ph cases).
