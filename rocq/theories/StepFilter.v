(** Which functions the debugger of Visual Studio does not step into.

    Models: debugger/option.natstepfilter.  A name in such a file is a regular expression of ECMAScript that has to match
    the whole qualified name of a function.  The expressions that are read have characters, dots and quantifiers only; text
    is ASCII. *)
From Coq Require Import Bool List Ascii String.
From Verif Require Import PyText.
Import ListNotations.

(** option.natstepfilter 1-7 *)
Definition source : list text := map txt [
  "<?xml version=""1.0"" encoding=""utf-8""?>";
  "<StepFilter xmlns=""http://schemas.microsoft.com/vstudio/debugger/natstepfilter/2010"">";
  "    <Function>";
  "        <Name>opt::.+</Name>";
  "        <Action>NoStepInto</Action>";
  "    </Function>";
  "</StepFilter>"]%string.

(** The text after a word, if the line begins with it; the text before a word, if the line ends with it. *)
Fixpoint after_word (w s : text) : option text :=
  match w, s with
  | [], _ => Some s
  | a :: w, b :: s => if Ascii.eqb a b then after_word w s else None
  | _, [] => None
  end.
Definition before_word (w s : text) : option text := option_map (@rev ascii) (after_word (rev w) (rev s)).
Definition inside_of (open close line : text) : option text :=
  match after_word open (strip line) with Some r => before_word close r | None => None end.

(** The functions: a name and an action each. *)
Fixpoint functions (lines : list text) : list (text * text) :=
  match lines with
  | l :: ((n :: a :: c :: _) as rest) =>
      let more := functions rest in
      if same_text (strip l) (txt "<Function>") && same_text (strip c) (txt "</Function>") then
        match inside_of (txt "<Name>") (txt "</Name>") n, inside_of (txt "<Action>") (txt "</Action>") a with
        | Some x, Some y => (x, y) :: more
        | _, _ => more
        end
      else more
  | _ => []
  end.

(** Regular expressions. *)
Inductive atom : Type := Lit (c : ascii) | Dot.
Inductive count : Type := Once | Optional | Repeated | Positive.
Definition piece : Type := atom * count.
Definition special (c : ascii) : bool := existsb (Ascii.eqb c) (txt "^$\.*+?()[]{}|").
Definition atom_of (c : ascii) : option atom :=
  if Ascii.eqb c "." then Some Dot else if special c then None else Some (Lit c).
Definition count_of (c : ascii) : option count :=
  if Ascii.eqb c "?" then Some Optional else if Ascii.eqb c "*" then Some Repeated
  else if Ascii.eqb c "+" then Some Positive else None.
Fixpoint pieces (s : text) : option (list piece) :=
  match s with
  | [] => Some []
  | c :: r =>
      match atom_of c with
      | None => None
      | Some a =>
          match r with
          | q :: r' => match count_of q with
                       | Some k => option_map (cons (a, k)) (pieces r')
                       | None => option_map (cons (a, Once)) (pieces r)
                       end
          | [] => Some [(a, Once)]
          end
      end
  end.

(** A dot is any character but the end of a line. *)
Definition accepts (a : atom) (c : ascii) : bool :=
  match a with
  | Lit d => Ascii.eqb c d
  | Dot => negb (Ascii.eqb c "010" || Ascii.eqb c "013")
  end.
Fixpoint matches (ps : list piece) (s : text) {struct ps} : bool :=
  match ps with
  | [] => match s with [] => true | _ => false end
  | (a, k) :: ps =>
      let many := fix many s := matches ps s || match s with [] => false | c :: r => accepts a c && many r end in
      match k, s with
      | Once, c :: r => accepts a c && matches ps r
      | Once, [] => false
      | Optional, c :: r => matches ps s || (accepts a c && matches ps r)
      | Optional, [] => matches ps s
      | Repeated, _ => many s
      | Positive, c :: r => accepts a c && many r
      | Positive, [] => false
      end
  end.

Definition whole (pattern name : text) : bool := match pieces pattern with Some ps => matches ps name | None => false end.
(** The function is not stepped into. *)
Definition skipped_by (lines : list text) (name : text) : bool :=
  existsb (fun f => same_text (snd f) (txt "NoStepInto") && whole (fst f) name) (functions lines).
Definition skipped (name : text) : bool := skipped_by source name.
