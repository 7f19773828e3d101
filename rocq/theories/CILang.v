(** The workflow .github/workflows/ci.yml: the part of YAML it is written in, the expressions in ${{ }}, the
    words of its command lines and the calls of cmake among them.

    Simplifications.
    - YAML: mappings and sequences by indentation, plain and single quoted scalars, >- and | blocks,
      sequences and mappings of quoted scalars in [ ] and { }, comments.  Blocks of >- have one indentation.
    - Expressions: names, quoted strings, ==, !=, && and ||; a name without a value is the empty text.
      Texts are compared as they are (GitHub ignores the case of letters, which makes no difference here).
    - Command lines: words are separated by blanks outside double quotes, the quotes are removed; in the
      PowerShell of Windows a backtick keeps the next character.  Substitutions by the shell
      (`nproc`, $env:X) are left as text.
    - Only the calls of cmake are kept; what the other commands install is part of [host] of CMakeLang. *)
From Coq Require Import Bool List Ascii String Arith.
From Verif Require Import CISource.
Import ListNotations.
Open Scope string_scope.
Open Scope list_scope.

(** * YAML *)

Inductive yaml : Type :=
| Text (s : string)
| Mapping (l : list (string * yaml))
| Items (l : list yaml).

Record line := mkline { indent : nat; body : string }.

Fixpoint drop_blanks (s : string) : nat * string :=
  match s with
  | String " "%char r => let (n, b) := drop_blanks r in (S n, b)
  | _ => (0, s)
  end.
Fixpoint only_blanks (s : string) : bool :=
  match s with EmptyString => true | String c r => Ascii.eqb c " " && only_blanks r end.
(** Without blanks at the end. *)
Fixpoint trimmed (s : string) : string :=
  match s with
  | EmptyString => EmptyString
  | String c r => if only_blanks s then EmptyString else String c (trimmed r)
  end.

(** Blank lines and lines with comments are left out. *)
Definition to_line (s : string) : list line :=
  let (n, b) := drop_blanks s in
  match b with
  | EmptyString | String "#"%char _ => []
  | _ => [mkline n (trimmed b)]
  end.
Definition lines_of (l : list string) : list line := flat_map to_line l.

(** Up to the next quote. *)
Fixpoint quoted_text (s : string) : option (string * string) :=
  match s with
  | EmptyString => None
  | String "'"%char r => Some (EmptyString, r)
  | String c r => match quoted_text r with Some (a, b) => Some (String c a, b) | None => None end
  end.

(** key: value, the colon being followed by a blank or the end. *)
Fixpoint split_key (s : string) : option (string * string) :=
  match s with
  | EmptyString => None
  | String ":"%char EmptyString => Some (EmptyString, EmptyString)
  | String ":"%char (String " "%char r) => Some (EmptyString, snd (drop_blanks r))
  | String c r => match split_key r with Some (a, b) => Some (String c a, b) | None => None end
  end.

(** ['a', 'b'] and { A: 'a', B: 'b' }, behind the opening bracket. *)
Fixpoint flow_items (fuel : nat) (s : string) : option (list yaml) :=
  match fuel with
  | O => None
  | S n =>
      match snd (drop_blanks s) with
      | String "]"%char EmptyString => Some []
      | String "'"%char r =>
          match quoted_text r with
          | Some (a, String ","%char r') => option_map (cons (Text a)) (flow_items n r')
          | Some (a, r') => option_map (cons (Text a)) (flow_items n r')
          | None => None
          end
      | _ => None
      end
  end.
Fixpoint flow_mapping (fuel : nat) (s : string) : option (list (string * yaml)) :=
  match fuel with
  | O => None
  | S n =>
      match snd (drop_blanks s) with
      | String "}"%char EmptyString => Some []
      | t =>
          match split_key t with
          | Some (k, String "'"%char r) =>
              match quoted_text r with
              | Some (a, String ","%char r') => option_map (cons (k, Text a)) (flow_mapping n r')
              | Some (a, r') => option_map (cons (k, Text a)) (flow_mapping n r')
              | None => None
              end
          | _ => None
          end
      end
  end.

Definition comment_or_end (s : string) : bool :=
  match snd (drop_blanks s) with EmptyString | String "#"%char _ => true | _ => false end.
Definition scalar (s : string) : option yaml :=
  match s with
  | String "'"%char r =>
      match quoted_text r with Some (a, r') => if comment_or_end r' then Some (Text a) else None | None => None end
  | String "["%char r => option_map Items (flow_items (String.length r) r)
  | String "{"%char r => option_map Mapping (flow_mapping (String.length r) r)
  | _ => Some (Text s)
  end.

(** The lines that belong to the entry: those that are indented more. *)
Fixpoint deeper (n : nat) (l : list line) : list line * list line :=
  match l with
  | x :: r => if Nat.ltb n (indent x) then let (a, b) := deeper n r in (x :: a, b) else ([], l)
  | [] => ([], [])
  end.

Definition newline : string := String "010" EmptyString.
Fixpoint join_with (sep : string) (l : list string) : string :=
  match l with
  | [] => EmptyString
  | [s] => s
  | s :: r => (s ++ sep ++ join_with sep r)%string
  end.

Definition item_of (s : string) : option string :=
  match s with String "-"%char (String " "%char r) => Some r | _ => None end.

(** [fuel] is at least the number of lines and of their characters. *)
Fixpoint block (fuel : nat) (l : list line) : option yaml :=
  match fuel with
  | O => None
  | S n =>
      match l with
      | [] => Some (Text EmptyString)
      | x :: r =>
          match item_of (body x) with
          | Some _ => option_map Items (items n (indent x) l)
          | None => option_map Mapping (entries n (indent x) l)
          end
      end
  end
with items (fuel ind : nat) (l : list line) : option (list yaml) :=
  match fuel with
  | O => None
  | S n =>
      match l with
      | [] => Some []
      | x :: r =>
          if Nat.eqb (indent x) ind then
            match item_of (body x) with
            | Some s =>
                let (a, b) := deeper ind r in
                match (match split_key s with
                       | Some _ => block n (mkline (S (S ind)) s :: a)
                       | None => match a with [] => scalar s | _ => None end
                       end), items n ind b with
                | Some y, Some ys => Some (y :: ys)
                | _, _ => None
                end
            | None => None
            end
          else None
      end
  end
with entries (fuel ind : nat) (l : list line) : option (list (string * yaml)) :=
  match fuel with
  | O => None
  | S n =>
      match l with
      | [] => Some []
      | x :: r =>
          if Nat.eqb (indent x) ind then
            match split_key (body x) with
            | Some (k, v) =>
                let (a, b) := deeper ind r in
                let y :=
                  if String.eqb v ">-" then Some (Text (join_with " " (map body a)))
                  else if String.eqb v "|" then Some (Text (join_with newline (map body a)))
                  else if String.eqb v "" then block n a
                  else match a with [] => scalar v | _ => None end in
                match y, entries n ind b with
                | Some y, Some ys => Some ((k, y) :: ys)
                | _, _ => None
                end
            | None => None
            end
          else None
      end
  end.

Definition read_yaml (l : list string) : option yaml := let ls := lines_of l in block (2 * List.length ls) ls.

(** Looking into a document; what is missing is the empty text. *)
Definition entry (k : string) (y : yaml) : yaml :=
  match y with
  | Mapping l => match find (fun p => String.eqb (fst p) k) l with Some (_, v) => v | None => Text "" end
  | _ => Text ""
  end.
Definition text (y : yaml) : string := match y with Text s => s | _ => "" end.
Definition list_of (y : yaml) : list yaml := match y with Items l => l | _ => [] end.
Definition pairs (y : yaml) : list (string * string) :=
  match y with Mapping l => map (fun p => (fst p, text (snd p))) l | _ => [] end.

(** * Expressions *)

Inductive tok : Type := TName (s : string) | TStr (s : string) | TEq | TNe | TAnd | TOr.

Definition name_char (c : ascii) : bool :=
  let n := nat_of_ascii c in
  (Nat.leb 97 n && Nat.leb n 122) || (Nat.leb 65 n && Nat.leb n 90) || (Nat.leb 48 n && Nat.leb n 57) ||
  Ascii.eqb c "_" || Ascii.eqb c "-" || Ascii.eqb c ".".
Fixpoint take_name (s : string) : string * string :=
  match s with
  | String c r => if name_char c then let (a, b) := take_name r in (String c a, b) else (EmptyString, s)
  | EmptyString => (EmptyString, EmptyString)
  end.
Fixpoint tokens (fuel : nat) (s : string) : option (list tok) :=
  match fuel with
  | O => None
  | S n =>
      match snd (drop_blanks s) with
      | EmptyString => Some []
      | String "'"%char r =>
          match quoted_text r with Some (a, r') => option_map (cons (TStr a)) (tokens n r') | None => None end
      | String "="%char (String "="%char r) => option_map (cons TEq) (tokens n r)
      | String "!"%char (String "="%char r) => option_map (cons TNe) (tokens n r)
      | String "&"%char (String "&"%char r) => option_map (cons TAnd) (tokens n r)
      | String "|"%char (String "|"%char r) => option_map (cons TOr) (tokens n r)
      | t => match take_name t with
             | (EmptyString, _) => None
             | (a, r) => option_map (cons (TName a)) (tokens n r)
             end
      end
  end.

Inductive val : Type := VText (s : string) | VBool (b : bool).
Definition truthy (v : val) : bool := match v with VText s => negb (String.eqb s "") | VBool b => b end.
Definition shown (v : val) : string := match v with VText s => s | VBool b => if b then "true" else "false" end.

Section Eval.
Context (value : string -> string).

Definition atom (t : tok) : option string :=
  match t with TName s => Some (value s) | TStr s => Some s | _ => None end.
(** A comparison or a single value, and the rest. *)
Definition comparison (l : list tok) : option (val * list tok) :=
  match l with
  | a :: TEq :: b :: r =>
      match atom a, atom b with Some x, Some y => Some (VBool (String.eqb x y), r) | _, _ => None end
  | a :: TNe :: b :: r =>
      match atom a, atom b with Some x, Some y => Some (VBool (negb (String.eqb x y)), r) | _, _ => None end
  | a :: r => match atom a with Some x => Some (VText x, r) | None => None end
  | [] => None
  end.
(** a && b is b if a is true, else a; a || b is a if a is true, else b.  && binds stronger. *)
Fixpoint conjunction (fuel : nat) (l : list tok) : option (val * list tok) :=
  match fuel with
  | O => None
  | S n =>
      match comparison l with
      | Some (a, TAnd :: r) =>
          match conjunction n r with Some (b, r') => Some (if truthy a then b else a, r') | None => None end
      | x => x
      end
  end.
Fixpoint disjunction (fuel : nat) (l : list tok) : option val :=
  match fuel with
  | O => None
  | S n =>
      match conjunction (List.length l) l with
      | Some (a, []) => Some a
      | Some (a, TOr :: r) =>
          match disjunction n r with Some b => Some (if truthy a then a else b) | None => None end
      | _ => None
      end
  end.
Definition expression (s : string) : option val :=
  match tokens (S (String.length s)) s with Some l => disjunction (List.length l) l | None => None end.

(** Up to the next }}. *)
Fixpoint up_to_close (s : string) : option (string * string) :=
  match s with
  | EmptyString => None
  | String "}"%char (String "}"%char r) => Some (EmptyString, r)
  | String c r => match up_to_close r with Some (a, b) => Some (String c a, b) | None => None end
  end.
(** Replaces every ${{ e }}. *)
Fixpoint expand (fuel : nat) (s : string) : option string :=
  match fuel with
  | O => None
  | S n =>
      match s with
      | EmptyString => Some EmptyString
      | String "$"%char (String "{"%char (String "{"%char r)) =>
          match up_to_close r with
          | Some (e, r') =>
              match expression e, expand n r' with
              | Some v, Some t => Some (shown v ++ t)%string
              | _, _ => None
              end
          | None => None
          end
      | String c r => option_map (String c) (expand n r)
      end
  end.
Definition expanded (s : string) : option string := expand (S (String.length s)) s.
(** if: without braces; none is true. *)
Definition condition (s : string) : option bool :=
  if String.eqb s "" then Some true
  else option_map truthy (match s with
                          | String "$"%char (String "{"%char (String "{"%char r)) =>
                              match up_to_close r with Some (e, EmptyString) => expression e | _ => None end
                          | _ => expression s
                          end).
End Eval.

(** * Command lines *)

Inductive shell : Type := Bash | PowerShell.

(** [cur]: the word so far, if any; [q]: inside quotes. *)
Fixpoint split_words (sh : shell) (s : string) (cur : option string) (q : bool) : list string :=
  match s with
  | EmptyString => match cur with Some w => [w] | None => [] end
  | String c r =>
      let more (d : ascii) := Some (match cur with Some w => (w ++ String d "")%string | None => String d "" end) in
      if Ascii.eqb c """" then split_words sh r (match cur with Some w => Some w | None => Some "" end) (negb q)
      else if Ascii.eqb c " " && negb q then
        match cur with Some w => w :: split_words sh r None false | None => split_words sh r None false end
      else match sh, c, r with
           | PowerShell, "`"%char, String d r' => split_words sh r' (more d) q
           | _, _, _ => split_words sh r (more c) q
           end
  end.
Definition command_words (sh : shell) (s : string) : list string := split_words sh s None false.

Fixpoint split_lines (s : string) (cur : string) : list string :=
  match s with
  | EmptyString => [cur]
  | String c r => if Ascii.eqb c "010" then cur :: split_lines r "" else split_lines r (cur ++ String c "")%string
  end.

(** NAME=VALUE *)
Fixpoint split_equals (s : string) : option (string * string) :=
  match s with
  | EmptyString => None
  | String "="%char r => Some (EmptyString, r)
  | String c r => match split_equals r with Some (a, b) => Some (String c a, b) | None => None end
  end.

Record configure := mkconfigure {
  c_dir : string;                         (* -B *)
  c_source : string;                      (* -S *)
  c_platform : string; c_toolset : string;  (* -A, -T *)
  c_settings : list (string * string) }.  (* -D, in the order of the words *)
Inductive action : Type :=
| Configure (c : configure)
| Build (dir config : string) (target : option string)
| Install (dir : string) (sudo : bool)
| Other (words : list string).

Fixpoint configure_args (fuel : nat) (l : list string) (c : configure) : option configure :=
  match fuel with
  | O => None
  | S n =>
      match l with
      | [] => Some c
      | "-B" :: d :: r => configure_args n r (mkconfigure d (c_source c) (c_platform c) (c_toolset c) (c_settings c))
      | "-S" :: d :: r => configure_args n r (mkconfigure (c_dir c) d (c_platform c) (c_toolset c) (c_settings c))
      | "-A" :: d :: r => configure_args n r (mkconfigure (c_dir c) (c_source c) d (c_toolset c) (c_settings c))
      | "-T" :: d :: r => configure_args n r (mkconfigure (c_dir c) (c_source c) (c_platform c) d (c_settings c))
      | String "-" (String "D" s) :: r =>
          match split_equals s with
          | Some (x, v) =>
              configure_args n r (mkconfigure (c_dir c) (c_source c) (c_platform c) (c_toolset c) (c_settings c ++ [(x, v)]))
          | None => None
          end
      | _ => None
      end
  end.
Fixpoint build_args (fuel : nat) (l : list string) (dir config : string) (t : option string) : option action :=
  match fuel with
  | O => None
  | S n =>
      match l with
      | [] => Some (Build dir config t)
      | "--config" :: x :: r => build_args n r dir x t
      | "--target" :: x :: r => build_args n r dir config (Some x)
      | "--parallel" :: _ :: r => build_args n r dir config t
      | _ => None
      end
  end.
Definition cmake_call (l : list string) : option action :=
  match l with
  | "cmake" :: "--build" :: d :: r => build_args (S (List.length r)) r d "" None
  | "cmake" :: "--install" :: d :: _ => Some (Install d false)
  | "sudo" :: "cmake" :: "--install" :: d :: _ => Some (Install d true)
  | "cmake" :: r => option_map Configure (configure_args (S (List.length r)) r (mkconfigure "" "." "" "" []))
  | w => Some (Other w)
  end.

(** * Jobs *)

(** A job for one entry of its matrix. *)
Record run := mkrun {
  r_job : string; r_matrix : list (string * string); r_system : string;
  r_env : list (string * string);                            (* env: of the job *)
  r_actions : list (list (string * string) * action) }.      (* with env: of the step *)

Definition field (l : list (string * string)) (x : string) : string :=
  match find (fun p => String.eqb (fst p) x) l with Some (_, v) => v | None => "" end.

(** matrix.x is a field of the entry; everything else (github.sha and so on) is given by [outside]. *)
Definition lookup_name (outside : string -> string) (m : list (string * string)) (x : string) : string :=
  if String.prefix "matrix." x then field m (substring 7 (String.length x - 7) x) else outside x.

(** include: lists the entries; otherwise every combination of the lists. *)
Fixpoint combinations (l : list (string * yaml)) : list (list (string * string)) :=
  match l with
  | [] => [[]]
  | (k, v) :: r => flat_map (fun y => map (cons (k, text y)) (combinations r)) (list_of v)
  end.
Definition matrix_entries (y : yaml) : list (list (string * string)) :=
  match y with
  | Mapping [("include", Items l)] => map pairs l
  | Mapping l => combinations l
  | _ => [[]]
  end.

Fixpoint all_some {A} (l : list (option A)) : option (list A) :=
  match l with
  | [] => Some []
  | Some x :: r => option_map (cons x) (all_some r)
  | None :: _ => None
  end.

Definition on_windows (os : string) : bool := String.prefix "windows" os.

Section Run.
Context (outside : string -> string) (job : string) (y : yaml).

Definition expand_pairs (m l : list (string * string)) : option (list (string * string)) :=
  all_some (map (fun p => option_map (pair (fst p)) (expanded (lookup_name outside m) (snd p))) l).

(** A step without run: does nothing here. *)
Definition step_actions (m : list (string * string)) (sh : shell) (s : yaml) : option (list (list (string * string) * action)) :=
  match condition (lookup_name outside m) (text (entry "if" s)) with
  | None => None
  | Some false => Some []
  | Some true =>
      match expanded (lookup_name outside m) (text (entry "run" s)), expand_pairs m (pairs (entry "env" s)) with
      | Some c, Some e =>
          all_some (map (fun w => option_map (pair e) (cmake_call w))
                        (filter (fun w => negb (match w with [] => true | _ => false end))
                                (map (command_words sh) (split_lines c ""))))
      | _, _ => None
      end
  end.
Definition job_run (m : list (string * string)) : option run :=
  match expanded (lookup_name outside m) (text (entry "runs-on" y)), expand_pairs m (pairs (entry "env" y)) with
  | Some os, Some e =>
      let sh := if on_windows os then PowerShell else Bash in
      match all_some (map (step_actions m sh) (list_of (entry "steps" y))) with
      | Some l => Some (mkrun job m os e (List.concat l))
      | None => None
      end
  | _, _ => None
  end.
Definition job_runs : option (list run) := all_some (map job_run (matrix_entries (entry "matrix" (entry "strategy" y)))).
End Run.

Definition workflow_runs (outside : string -> string) (y : yaml) : option (list run) :=
  match entry "jobs" y with
  | Mapping l => option_map (@List.concat run) (all_some (map (fun p => job_runs outside (fst p) (snd p)) l))
  | _ => None
  end.

(** .github/workflows/ci.yml 1-838 *)
Definition ci : yaml := Eval vm_compute in match read_yaml ci_yml with Some y => y | None => Text "" end.
