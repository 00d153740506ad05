(** A reader of the [Debug] text of a CPU. It knows the names of the fields, not their order or the layout. *)
From Coq Require Import ZArith Bool String Ascii List.
From Verif Require Import Base Parse Cpu Flavours Any Format.
Import ListNotations.
Open Scope string_scope.
Open Scope list_scope.
Open Scope Z_scope.

(** The words of a text: what is between blanks, newlines and punctuation. *)
Definition sep (c : ascii) : bool :=
  existsb (Ascii.eqb c) [" "%char; "010"%char; ","%char; ":"%char; "{"%char; "}"%char; "("%char; ")"%char].
Definition emit (w : string) (l : list string) : list string := match w with "" => l | _ => w :: l end.
Fixpoint words (cur s : string) : list string :=
  match s with
  | "" => emit cur []
  | String c s => if sep c then emit cur (words "" s) else words (cur ++ String c "") s
  end.
(** Names and values, in turn; the last value may have the word [Some] before it. *)
Fixpoint pairs (l : list string) : list (string * string) :=
  match l with
  | [n; _; v] => [(n, v)]
  | n :: v :: l => (n, v) :: pairs l
  | _ => []
  end.
Fixpoint look (n : string) (l : list (string * string)) : option string :=
  match l with [] => None | (m, v) :: l => if String.eqb m n then Some v else look n l end.

Definition digit_value (c : ascii) : Z :=
  let n := Z.of_nat (nat_of_ascii c) in if n <? 58 then n - 48 else if n <? 71 then n - 55 else n - 87.
Fixpoint number (b acc : Z) (s : string) : Z :=
  match s with "" => acc | String c s => number b (b * acc + digit_value c) s end.
Definition read_int (x : radix) (s : string) : Z :=
  match x with
  | Dec => number 10 0 s
  | _ => number 16 0 (match s with String "0" (String "x" s) => s | _ => s end)
  end.
Definition read_bool (s : string) : option bool :=
  if String.eqb s "true" then Some true else if String.eqb s "false" then Some false else None.
Definition read_im (s : string) : option InterruptMode :=
  if String.eqb s "Mode0" then Some Mode0 else if String.eqb s "Mode1" then Some Mode1
  else if String.eqb s "Mode2" then Some Mode2 else None.
Definition read_prefix (s : string) : option (option Prefix) :=
  if String.eqb s "None" then Some None else if String.eqb s "Xdd" then Some (Some Xdd)
  else if String.eqb s "Yfd" then Some (Some Yfd) else None.
Definition get {A} (o : option A) {B} (f : A -> option B) : option B := match o with Some a => f a | None => None end.
Notation "'with_' x <- o ; e" := (get o (fun x => e)) (at level 200, x name, o at level 100, e at level 200).
Definition read_fields (x : radix) (l : list (string * string)) : option (cpu unit) :=
  let int n := option_map (read_int x) (look n l) in
  let flag n := get (look n l) read_bool in
  with_ AF <- int "af"; with_ AF_ <- int "af'"; with_ bc <- int "bc"; with_ de <- int "de"; with_ hl <- int "hl";
  with_ bc_ <- int "bc'"; with_ de_ <- int "de'"; with_ hl_ <- int "hl'"; with_ ix <- int "ix"; with_ iy <- int "iy";
  with_ pc <- int "pc"; with_ sp <- int "sp"; with_ mp <- int "mp"; with_ ei <- flag "ei"; with_ ir <- int "ir";
  with_ im <- get (look "im" l) read_im; with_ iff1 <- flag "iff1"; with_ iff2 <- flag "iff2"; with_ halt <- flag "halt";
  with_ px <- get (look "prefix" l) read_prefix; with_ r <- int "r";
  Some (mkCpu AF AF_ bc de hl bc_ de_ hl_ ix iy pc sp mp ei ir im iff1 iff2 halt px r tt).
Definition read_cpu (x : radix) (s : string) : option (cpu unit) :=
  match words "" s with
  | name :: l => if String.eqb name "Z80" then read_fields x (pairs l) else None
  | [] => None
  end.
(** The kind of an [Any] and its CPU. *)
Definition read_any (x : radix) (s : string) : option (string * cpu unit) :=
  match words "" s with
  | kind :: name :: l => if String.eqb name "Z80" then option_map (pair kind) (read_fields x (pairs l)) else None
  | _ => None
  end.

(** What is to be read: everything but the flavour's own state. *)
Definition forget {Q} (c : cpu Q) : cpu unit :=
  mkCpu (af c) (af_alt c) (bc c) (de c) (hl c) (bc_alt c) (de_alt c) (hl_alt c) (ix c) (iy c) (pc c) (sp c) (memptr c)
    (last_ei c) (ir c) (im c) (iff1 c) (iff2 c) (halt c) (prefix c) (r c) tt.
Definition any_kind (a : z80any) : string := match a with AnyNMOS _ => "NMOS" | AnyCMOS _ => "CMOS" | AnyBM1 _ => "BM1" end.
Definition any_forget (a : z80any) : cpu unit := any_get a (fun Q FL c => forget c).
Fixpoint newlines (s : string) : nat :=
  match s with "" => 0%nat | String c s => ((if Ascii.eqb c "010"%char then 1 else 0) + newlines s)%nat end.
(** How deep in brackets a text is, and the number of blanks since the start of the line if there is nothing else yet; none if a line is not
    indented by four blanks for each open bracket (one that starts with a closing bracket, by four less), or a bracket is not open. *)
Fixpoint layout (depth : nat) (blanks : option nat) (s : string) : option (nat * option nat) :=
  match s with
  | "" => Some (depth, blanks)
  | String c s =>
      let fits n := match blanks with Some k => Nat.eqb k (4 * n) | None => true end in
      if Ascii.eqb c "010"%char then match blanks with None => layout depth (Some 0%nat) s | Some _ => None end
      else if Ascii.eqb c " "%char then layout depth (option_map S blanks) s
      else if Ascii.eqb c "}"%char || Ascii.eqb c ")"%char then match depth with S n => if fits n then layout n None s else None | O => None end
      else if fits depth then layout (if Ascii.eqb c "{"%char || Ascii.eqb c "("%char then S depth else depth) None s else None
  end.
Definition neat (s : string) : Prop := layout 0 (Some 0%nat) s = Some (0%nat, None).
