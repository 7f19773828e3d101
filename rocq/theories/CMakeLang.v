(** An interpreter for the part of the CMake language that the CMake files of the repository use:
    CMakeLists.txt, cmake/*.cmake, cmake/option-config.cmake.in, test/CMakeLists.txt,
    test/codegen/CMakeLists.txt, examples/CMakeLists.txt, benchmark/CMakeLists.txt and
    test/cmake/*/CMakeLists.txt.  The program that is run is the text of these files, read by [parse].

    Follows cmake-language(7) and cmake-commands(7) of CMake 3.24 with all policies of 3.24 set to NEW.

    Simplifications.
    - A value is the list of its elements.  A string that comes from outside (a -D setting, the name of
      the compiler) is a single element.
    - A word of a condition names a variable only if it stands in the file without ${} and is neither a
      number nor a word of the syntax of conditions.
    - Patterns of MATCHES are alternatives of plain texts; others stop the interpreter.
    - The source tree lies in /src, a project that uses it in /use, their build trees in /bin/src and so on.
    - Modules, programs, downloads and packages that are not part of the repository are described by
      [host]: whether they are found and which targets they define.
    - Functions do not replace commands of CMake.
    - Commands that describe the build (target_compile_options, install and others) are put on record
      with their arguments; generator expressions are kept as text. *)
From Coq Require Import Bool List Ascii String NArith.
Import ListNotations.
Open Scope string_scope.
Open Scope list_scope.

(** * Text to commands *)

Inductive piece := Lit (s : string) | Ref (x : string) | FromEnv (x : string).
Record arg := mkarg { quoted : bool; pieces : list piece }.
Inductive token := TArg (a : arg) | TOpen | TClose.
Inductive mode :=
| Skip | Comment
| InArg (q : bool) (done : list piece) (cur : string)
| InRef (q : bool) (done : list piece) (env : bool) (name : string).

Definition snoc (s : string) (c : ascii) : string := (s ++ String c "")%string.
Definition flush (done : list piece) (cur : string) : list piece :=
  if String.eqb cur "" then done else done ++ [Lit cur].
Definition blank (c : ascii) : bool :=
  match c with " "%char => true | "009"%char => true | "010"%char => true | "013"%char => true | _ => false end.
Definition tok (q : bool) (done : list piece) (cur : string) : token := TArg (mkarg q (flush done cur)).
Definition add {A} (t : A) (r : option (list A)) : option (list A) := option_map (cons t) r.

Fixpoint lex (m : mode) (s : string) : option (list token) :=
  match s with
  | EmptyString =>
      match m with
      | Skip | Comment => Some []
      | InArg false d c => Some [tok false d c]
      | _ => None
      end
  | String c r =>
      match m with
      | Comment => lex (if Ascii.eqb c "010" then Skip else Comment) r
      | Skip =>
          if blank c then lex Skip r
          else if Ascii.eqb c "#" then lex Comment r
          else if Ascii.eqb c "(" then add TOpen (lex Skip r)
          else if Ascii.eqb c ")" then add TClose (lex Skip r)
          else if Ascii.eqb c """" then lex (InArg true [] "") r
          else
            match c, r with
            | "$"%char, String "{"%char r' => lex (InRef false [] false "") r'
            | "$"%char, String "E"%char (String "N"%char (String "V"%char (String "{"%char r'))) =>
                lex (InRef false [] true "") r'
            | _, _ => lex (InArg false [] (String c "")) r
            end
      | InArg true d cur =>
          if Ascii.eqb c """" then add (tok true d cur) (lex Skip r)
          else
            match c, r with
            | "\"%char, String e r' => lex (InArg true d (snoc cur e)) r'
            | "$"%char, String "{"%char r' => lex (InRef true (flush d cur) false "") r'
            | "$"%char, String "E"%char (String "N"%char (String "V"%char (String "{"%char r'))) =>
                lex (InRef true (flush d cur) true "") r'
            | _, _ => lex (InArg true d (snoc cur c)) r
            end
      | InArg false d cur =>
          if blank c then add (tok false d cur) (lex Skip r)
          else if Ascii.eqb c "#" then add (tok false d cur) (lex Comment r)
          else if Ascii.eqb c "(" then add (tok false d cur) (add TOpen (lex Skip r))
          else if Ascii.eqb c ")" then add (tok false d cur) (add TClose (lex Skip r))
          else
            match c, r with
            | "$"%char, String "{"%char r' => lex (InRef false (flush d cur) false "") r'
            | "$"%char, String "E"%char (String "N"%char (String "V"%char (String "{"%char r'))) =>
                lex (InRef false (flush d cur) true "") r'
            | _, _ => lex (InArg false d (snoc cur c)) r
            end
      | InRef q d e n =>
          if Ascii.eqb c "}" then lex (InArg q (d ++ [if e then FromEnv n else Ref n]) "") r
          else lex (InRef q d e (snoc n c)) r
      end
  end.

(** A command invocation: name ( arguments ). *)
Definition command : Type := string * list arg.

Fixpoint commands (cur : option (string * bool * list arg)) (ts : list token) : option (list command) :=
  match ts with
  | [] => match cur with None => Some [] | _ => None end
  | t :: r =>
      match cur, t with
      | None, TArg (mkarg false [Lit n]) => commands (Some (n, false, [])) r
      | Some (n, false, l), TOpen => commands (Some (n, true, l)) r
      | Some (n, true, l), TArg a => commands (Some (n, true, l ++ [a])) r
      | Some (n, true, l), TClose => add (n, l) (commands None r)
      | _, _ => None
      end
  end.

(** * Commands to blocks *)

Inductive stmt :=
| Do (name : string) (args : list arg)
| If (branches : list (list arg * list stmt)) (otherwise : list stmt)
| Foreach (args : list arg) (body : list stmt)
| Define (is_macro : bool) (name : string) (params : list string) (body : list stmt).

Definition ends : list string := ["elseif"; "else"; "endif"; "endforeach"; "endfunction"; "endmacro"].
Definition mem (x : string) (l : list string) : bool := existsb (String.eqb x) l.
Definition plain_words (l : list arg) : list string :=
  map (fun a => match a with mkarg _ [Lit s] => s | _ => "" end) l.

Fixpoint block (n : nat) (l : list command) {struct n} : option (list stmt * list command) :=
  match n with
  | O => None
  | S n =>
      match l with
      | [] => Some ([], [])
      | (name, args) :: r =>
          let more s r := match block n r with Some (b, r) => Some (s :: b, r) | None => None end in
          if mem name ends then Some ([], l)
          else if String.eqb name "if" then
            match ifs n args r with
            | Some (bs, e, r) => more (If bs e) r
            | None => None
            end
          else if String.eqb name "foreach" then
            match block n r with
            | Some (b, ("endforeach", _) :: r) => more (Foreach args b) r
            | _ => None
            end
          else if String.eqb name "function" then
            match block n r, plain_words args with
            | Some (b, ("endfunction", _) :: r), f :: ps => more (Define false f ps b) r
            | _, _ => None
            end
          else if String.eqb name "macro" then
            match block n r, plain_words args with
            | Some (b, ("endmacro", _) :: r), f :: ps => more (Define true f ps b) r
            | _, _ => None
            end
          else more (Do name args) r
      end
  end
with ifs (n : nat) (c : list arg) (l : list command) {struct n}
  : option (list (list arg * list stmt) * list stmt * list command) :=
  match n with
  | O => None
  | S n =>
      match block n l with
      | Some (b, (t, args) :: r) =>
          if String.eqb t "endif" then Some ([(c, b)], [], r)
          else if String.eqb t "elseif" then
            match ifs n args r with Some (bs, e, r) => Some ((c, b) :: bs, e, r) | None => None end
          else if String.eqb t "else" then
            match block n r with
            | Some (e, ("endif", _) :: r) => Some ([(c, b)], e, r)
            | _ => None
            end
          else None
      | _ => None
      end
  end.

Definition newline : string := String "010" "".
Definition text_of (lines : list string) : string := concat newline lines.
Definition parse (lines : list string) : option (list stmt) :=
  match lex Skip (text_of lines) with
  | None => None
  | Some ts =>
      match commands None ts with
      | None => None
      | Some cs =>
          match block (S (List.length cs + List.length cs)) cs with
          | Some (b, []) => Some b
          | _ => None
          end
      end
  end.

(** * Values and states *)

Definition value : Type := list string.
Definition vmap : Type := string -> option value.
Definition upd {A} (f : string -> A) (x : string) (v : A) : string -> A :=
  fun y => if String.eqb y x then v else f y.

(** What the interpreter puts on record. *)
Inductive kind := Executable | Library | InterfaceLibrary | Custom.
Inductive event :=
| Made (name : string) (k : kind) (excluded : bool) (sources : list string) (compile link : value)
    (** a target; the options its directory gives to targets made in it *)
| Said (command : string) (args : list string).

Record fundef := mkfun { f_macro : bool; f_params : list string; f_body : list stmt }.
Record state := mkst {
  vars : vmap;                          (* variables of the scope *)
  cache : vmap;                         (* the cache, -D settings included *)
  up : list (string * value);           (* set(... PARENT_SCOPE) *)
  funcs : string -> option fundef;
  guarded : string -> bool;             (* files read whose first command is include_guard(GLOBAL) *)
  exists_target : string -> bool;
  dir : string;                         (* CMAKE_CURRENT_SOURCE_DIR *)
  excl : bool;                          (* the directory was added with EXCLUDE_FROM_ALL *)
  dopts : value; dlink : value;         (* COMPILE_OPTIONS and LINK_OPTIONS of the directory *)
  record : list event }.

Definition with_vars (st : state) v : state :=
  mkst v (cache st) (up st) (funcs st) (guarded st) (exists_target st) (dir st) (excl st) (dopts st) (dlink st) (record st).
Definition with_cache (st : state) c : state :=
  mkst (vars st) c (up st) (funcs st) (guarded st) (exists_target st) (dir st) (excl st) (dopts st) (dlink st) (record st).
Definition with_up (st : state) u : state :=
  mkst (vars st) (cache st) u (funcs st) (guarded st) (exists_target st) (dir st) (excl st) (dopts st) (dlink st) (record st).
Definition with_funcs (st : state) f : state :=
  mkst (vars st) (cache st) (up st) f (guarded st) (exists_target st) (dir st) (excl st) (dopts st) (dlink st) (record st).
Definition with_guarded (st : state) g : state :=
  mkst (vars st) (cache st) (up st) (funcs st) g (exists_target st) (dir st) (excl st) (dopts st) (dlink st) (record st).
Definition with_targets (st : state) t : state :=
  mkst (vars st) (cache st) (up st) (funcs st) (guarded st) t (dir st) (excl st) (dopts st) (dlink st) (record st).
Definition with_dir (st : state) d x o l : state :=
  mkst (vars st) (cache st) (up st) (funcs st) (guarded st) (exists_target st) d x o l (record st).
Definition say (st : state) (e : event) : state :=
  mkst (vars st) (cache st) (up st) (funcs st) (guarded st) (exists_target st) (dir st) (excl st) (dopts st) (dlink st)
       (record st ++ [e]).

Definition orelse (a b : option value) : option value := match a with Some v => Some v | None => b end.
Definition lookup (st : state) (x : string) : option value := orelse (vars st x) (cache st x).
(** The elements of a variable, given how variables are looked up. *)
Definition get (look : string -> option value) (x : string) : value :=
  match look x with Some v => v | None => [] end.

(** What is found outside the repository. *)
Record host := mkhost {
  h_python : option string;              (* Python3: the executable is / followed by this *)
  h_program : string -> option string;   (* find_program, by the variable *)
  h_library : string -> option string;   (* find_library, by the variable *)
  h_symbol : string -> bool;             (* check_cxx_symbol_exists, by the symbol *)
  h_download : bool;                     (* file(DOWNLOAD) succeeds *)
  h_env : string -> string;              (* environment variables *)
  h_provides : string -> list string;    (* targets that FetchContent_MakeAvailable defines *)
  h_alias : string -> option string;     (* ALIASED_TARGET *)
  h_libdir : string                      (* the default of CMAKE_INSTALL_LIBDIR *)
}.

(** * Expansion *)

Definition join (v : value) : string := concat ";" v.
Fixpoint glue (a b : value) : value :=
  match a with
  | [] => b
  | [x] => match b with [] => [x] | y :: r => (x ++ y)%string :: r end
  | x :: a => x :: glue a b
  end.
Definition nonempty (s : string) : bool := match s with EmptyString => false | _ => true end.

Definition piece_value (h : host) (look : string -> option value) (p : piece) : value :=
  match p with Lit s => [s] | Ref x => get look x | FromEnv x => [h_env h x] end.
Definition arg_value (h : host) (look : string -> option value) (a : arg) : value :=
  match pieces a with
  | [p] => piece_value h look p
  | ps => fold_right (fun p r => glue (piece_value h look p) r) [] ps
  end.
Definition expand (h : host) (look : string -> option value) (a : arg) : list string :=
  if quoted a then [join (arg_value h look a)] else filter nonempty (arg_value h look a).
Definition expand_all (h : host) (look : string -> option value) (l : list arg) : list string := flat_map (expand h look) l.

(** set(x ""): the empty string is the empty list. *)
Definition norm (v : value) : value := match v with [s] => if nonempty s then v else [] | _ => v end.

Fixpoint split_at (c : ascii) (s : string) : list string :=
  match s with
  | EmptyString => [""]
  | String d r =>
      if Ascii.eqb c d then "" :: split_at c r
      else match split_at c r with x :: l => String d x :: l | [] => [String d ""] end
  end.
Definition semis (s : string) : list string := filter nonempty (split_at ";" s).
(** separate_arguments(x) *)
Definition separate (v : value) : value := flat_map (fun s => filter nonempty (split_at " " s)) v.

(** * Conditions *)

Definition upper_char (c : ascii) : ascii :=
  let n := N_of_ascii c in if ((97 <=? n) && (n <=? 122))%N then ascii_of_N (n - 32) else c.
Fixpoint upper (s : string) : string :=
  match s with EmptyString => "" | String c r => String (upper_char c) (upper r) end.
Fixpoint ends_with (s e : string) : bool :=
  String.eqb s e || match s with EmptyString => false | String _ r => ends_with r e end.
Definition is_digit (c : ascii) : bool := let n := N_of_ascii c in ((48 <=? n) && (n <=? 57))%N.
Fixpoint all_digits (s : string) : bool :=
  match s with EmptyString => true | String c r => is_digit c && all_digits r end.
Definition number (s : string) : option N :=
  if nonempty s && all_digits s then
    Some (fold_left (fun a c => 10 * a + (N_of_ascii c - 48))%N (list_ascii_of_string s) 0%N)
  else None.

(** The false and the true constants of if(); names in any case. *)
Definition is_false (s : string) : bool :=
  let u := upper s in
  mem u [""; "0"; "OFF"; "NO"; "FALSE"; "N"; "IGNORE"; "NOTFOUND"] || ends_with u "-NOTFOUND".
Definition is_on (s : string) : bool := mem (upper s) ["1"; "ON"; "YES"; "TRUE"; "Y"].
Definition is_true_constant (s : string) : bool :=
  is_on s || match number s with Some n => negb (n =? 0)%N | None => false end.

Fixpoint prefix_of (p s : string) : bool :=
  match p, s with
  | EmptyString, _ => true
  | String a p, String b s => Ascii.eqb a b && prefix_of p s
  | _, EmptyString => false
  end.
Fixpoint has_sub (p s : string) : bool :=
  prefix_of p s || match s with EmptyString => false | String _ r => has_sub p r end.
Definition special (c : ascii) : bool :=
  existsb (Ascii.eqb c) ["^"; "$"; "."; "["; "]"; "-"; "*"; "+"; "?"; "("; ")"; "\"]%char.
Definition plain_pattern (p : string) : bool := forallb (fun c => negb (special c)) (list_ascii_of_string p).
Definition matches (pat s : string) : bool := existsb (fun p => has_sub p s) (split_at "|" pat).
Definition same (a b : string) : bool := String.eqb a b.

(** VERSION_LESS: components compared as numbers, missing ones are 0. *)
Definition component (s : string) : N :=
  let fix go s a := match s with
    | String c r => if is_digit c then go r (10 * a + (N_of_ascii c - 48))%N else a
    | EmptyString => a
    end in go s 0%N.
Fixpoint less (a b : list N) : bool :=
  match a, b with
  | x :: a, y :: b => (x <? y)%N || ((x =? y)%N && less a b)
  | [], y :: b => (0 <? y)%N || less [] b
  | _, [] => false
  end.
Definition version_less (a b : string) : bool := less (map component (split_at "." a)) (map component (split_at "." b)).

(** A word of a condition: [w_name] if it stands in the file as it is, without quotes. *)
Record word := mkword { w_name : bool; w_text : string }.
Definition words (h : host) (look : string -> option value) (l : list arg) : list word :=
  flat_map (fun a => match a with
                     | mkarg false [Lit s] => [mkword true s]
                     | _ => map (mkword false) (expand h look a)
                     end) l.
Definition keyword (w : word) (k : string) : bool := w_name w && String.eqb (w_text w) k.
Definition tests : list string := ["STREQUAL"; "MATCHES"; "EQUAL"; "VERSION_LESS"].
Definition may_name (w : word) : bool :=
  w_name w && negb (mem (w_text w) (["NOT"; "AND"; "OR"; "DEFINED"] ++ tests))
  && match number (w_text w) with Some _ => false | None => true end.
Definition operand (look : string -> option value) (w : word) : string :=
  if may_name w then match look (w_text w) with Some v => join v | None => w_text w end else w_text w.
Definition binary (w : word) : bool := w_name w && mem (w_text w) tests.
Definition test_word (look : string -> option value) (w : word) : bool :=
  is_true_constant (w_text w)
  || (may_name w && match look (w_text w) with Some v => negb (is_false (join v)) | None => false end).
Definition test_binary (look : string -> option value) (a op b : word) : option bool :=
  let x := operand look a in
  let y := operand look b in
  if String.eqb (w_text op) "STREQUAL" then Some (same x y)
  else if String.eqb (w_text op) "MATCHES" then
    if plain_pattern (w_text b) then Some (matches (w_text b) x) else None
  else if String.eqb (w_text op) "VERSION_LESS" then Some (version_less x y)
  else Some (match number x, number y with Some m, Some n => (m =? n)%N | _, _ => false end).
Definition defined (look : string -> option value) (x : string) : bool := match look x with Some _ => true | None => false end.

(** Unary tests, binary tests, NOT. *)
Fixpoint factor (look : string -> option value) (n : nat) (l : list word) {struct n} : option (bool * list word) :=
  match n, l with
  | S n, w :: r =>
      if keyword w "NOT" then
        match factor look n r with Some (b, r) => Some (negb b, r) | None => None end
      else if keyword w "DEFINED" then
        match r with x :: r => if may_name x then Some (defined look (w_text x), r) else None | [] => None end
      else
        match r with
        | op :: b :: r' =>
            if binary op then
              match test_binary look w op b with Some t => Some (t, r') | None => None end
            else Some (test_word look w, r)
        | _ => Some (test_word look w, r)
        end
  | _, _ => None
  end.
(** AND and OR, from left to right. *)
Fixpoint terms (look : string -> option value) (n : nat) (acc : bool) (l : list word) {struct n} : option bool :=
  match n, l with
  | _, [] => Some acc
  | S n, w :: r =>
      match factor look (S n) r with
      | Some (b, r) =>
          if keyword w "AND" then terms look n (acc && b) r
          else if keyword w "OR" then terms look n (acc || b) r
          else None
      | None => None
      end
  | _, _ => None
  end.
Definition condition (h : host) (look : string -> option value) (l : list arg) : option bool :=
  let ws := words h look l in
  match factor look (List.length ws) ws with
  | Some (b, r) => terms look (List.length ws) b r
  | None => None
  end.

(** * Macros: references to parameters are replaced before the body runs *)

Definition subst_piece (b : list (string * string)) (p : piece) : piece :=
  match p with
  | Ref x => match find (fun e => String.eqb (fst e) x) b with Some (_, v) => Lit v | None => p end
  | _ => p
  end.
Definition subst_arg b (a : arg) : arg := mkarg (quoted a) (map (subst_piece b) (pieces a)).
Fixpoint subst (b : list (string * string)) (s : stmt) : stmt :=
  match s with
  | Do n l => Do n (map (subst_arg b) l)
  | If bs e => If (map (fun p => (map (subst_arg b) (fst p), map (subst b) (snd p))) bs) (map (subst b) e)
  | Foreach l d => Foreach (map (subst_arg b) l) (map (subst b) d)
  | Define m n ps d => Define m n ps (map (subst b) d)
  end.

(** * cmake_parse_arguments *)

Inductive taking := TNone | TOne (k : string) | TMany (k : string).
Definition opt_cons (o : option value) (s : string) : option value :=
  Some (match o with Some v => v ++ [s] | None => [s] end).
Fixpoint parse_args (opts ones manys : list string) (t : taking) (m : vmap) (l : list string) : vmap :=
  match l with
  | [] => m
  | s :: r =>
      if mem s opts then parse_args opts ones manys TNone (upd m s (Some ["TRUE"])) r
      else if mem s ones then parse_args opts ones manys (TOne s) m r
      else if mem s manys then parse_args opts ones manys (TMany s) m r
      else match t with
           | TNone => parse_args opts ones manys TNone m r
           | TOne k => parse_args opts ones manys TNone (upd m k (Some [s])) r
           | TMany k => parse_args opts ones manys (TMany k) (upd m k (opt_cons (m k) s)) r
           end
  end.
Definition bind_args (p : string) (opts ones manys : list string) (l : list string) : list (string * option value) :=
  let m := parse_args opts ones manys TNone (fun _ => None) l in
  let name k := (p ++ "_" ++ k)%string in
  map (fun k => (name k, Some (match m k with Some v => v | None => ["FALSE"] end))) opts
  ++ map (fun k => (name k, m k)) (ones ++ manys).

(** * Commands *)

(** What a command changes. *)
Inductive op :=
| OVar (x : string) (v : option value)     (* set or unset a variable of the scope *)
| OCache (x : string) (v : value)          (* set a cache entry *)
| ODefault (x : string) (v : value)        (* option(): set a cache entry unless x is defined *)
| OOnce (x : string) (v : value)           (* set(... CACHE): set a cache entry unless there is one *)
| OUp (x : string) (v : value)             (* set(... PARENT_SCOPE) *)
| OTarget (t : string)                     (* a new target *)
| OTargets (x : string) (ts : list string) (* the targets of a package *)
| OFunction (x : string) (f : fundef)
| OGuard (p : string)                      (* the file p was read *)
| OEnter (d : string) (x : bool)           (* the directory, whether it is left out of the default build *)
| OOptions (v : value)                     (* COMPILE_OPTIONS of the directory *)
| OLinkOptions (v : value)
| OSay (e : event).
Definition act (o : op) (st : state) : state :=
  match o with
  | OVar x v => with_vars st (upd (vars st) x v)
  | OCache x v => with_cache st (upd (cache st) x (Some v))
  | ODefault x v => with_cache st (upd (cache st) x (if defined (lookup st) x then cache st x else Some v))
  | OOnce x v => with_cache st (upd (cache st) x (orelse (cache st x) (Some v)))
  | OUp x v => with_up st (up st ++ [(x, v)])
  | OTarget t => with_targets st (upd (exists_target st) t true)
  | OTargets _ ts => with_targets st (fun t => mem t ts || exists_target st t)
  | OFunction x f => with_funcs st (upd (funcs st) x (Some f))
  | OGuard p => with_guarded st (upd (guarded st) p true)
  | OEnter d x => with_dir st d x (dopts st) (dlink st)
  | OOptions v => with_dir st (dir st) (excl st) v (dlink st)
  | OLinkOptions v => with_dir st (dir st) (excl st) (dopts st) v
  | OSay e => say st e
  end.
Definition acts (l : list op) (st : state) : state := fold_left (fun st o => act o st) l st.

(** What a command may look at. *)
Record view := mkview {
  look : string -> option value; has : string -> bool;
  v_dir : string; v_excl : bool; v_opts : value; v_links : value }.
Definition view_of (st : state) : view :=
  mkview (lookup st) (exists_target st) (dir st) (excl st) (dopts st) (dlink st).

Inductive flow := Next | Returned.
Inductive result :=
| Done (st : state) (f : flow)
| Fatal (why : string)              (* CMake stops with an error *)
| Unknown (what : string)           (* not modelled *)
| NoFuel.
Inductive outcome := Ok (l : list op) | Stop (why : string) | Bad (what : string).

Definition without (ks l : list string) : list string := filter (fun s => negb (mem s ks)) l.
Definition absolute (p : string) : bool := match p with String "/"%char _ => true | _ => false end.
Definition under (d p : string) : string := if absolute p then p else (d ++ "/" ++ p)%string.
Definition binary_dir (d : string) : string := ("/bin" ++ d)%string.

Definition make_target (w : view) (name : string) (k : kind) (x : bool) (srcs : list string) : outcome :=
  if has w name then Stop ("target " ++ name ++ " already exists")
  else Ok [OTarget name; OSay (Made name k (x || v_excl w) srcs (v_opts w) (v_links w))].

(** Commands whose first argument has to be a target. *)
Definition on_target : list string :=
  ["target_include_directories"; "target_compile_features"; "target_sources"; "target_link_libraries";
   "target_compile_options"; "target_compile_definitions"; "target_link_options"].
(** Commands that are put on record as they are. *)
Definition recorded : list string :=
  ["add_custom_command"; "install"; "configure_package_config_file"; "write_basic_package_version_file";
   "FetchContent_Declare"; "ExternalProject_Add"; "ExternalProject_Get_Property"].
Definition modules : list string :=
  ["CMakePackageConfigHelpers"; "FetchContent"; "CheckCXXSymbolExists"; "ExternalProject"].

(** The names before PROPERTIES, or before one of the given words. *)
Fixpoint before (ks l : list string) : list string :=
  match l with
  | [] => []
  | s :: r => if mem s ks then [] else s :: before ks r
  end.
Definition missing (w : view) (l : list string) : option string := find (fun t => negb (has w t)) l.
Definition say_on (w : view) (ts : list string) (c : string) (args : list string) : outcome :=
  match missing w ts with
  | Some t => Stop ("no target " ++ t)
  | None => Ok [OSay (Said c args)]
  end.

(** The commands that [effects] knows. *)
Definition built_in : list string :=
  ["set"; "list"; "option"; "project"; "cmake_minimum_required"; "include_guard"; "message"; "separate_arguments";
   "add_compile_options"; "add_link_options"; "set_directory_properties"; "add_executable"; "add_library";
   "add_custom_target"; "set_target_properties"; "set_property"; "FetchContent_MakeAvailable"; "find_package";
   "find_program"; "find_library"; "check_cxx_symbol_exists"; "file"; "cmake_path"; "cmake_parse_arguments";
   "get_target_property"] ++ on_target ++ recorded.

(** Where find_package finds installed packages. *)
Definition package_dir : string := "/package".
Definition package (args : list string) : bool :=
  match args with p :: _ => negb (String.eqb p "Python3") | [] => false end.

Section Run.
Variable h : host.
Variable files : string -> option (list stmt).

(** Commands without blocks, files and functions. *)
Definition effects (w : view) (name : string) (args : list string) : outcome :=
  let bad := Bad name in
  if String.eqb name "set" then
    match args with
    | x :: r =>
        if mem "PARENT_SCOPE" r then Ok [OUp x (norm (before ["PARENT_SCOPE"] r))]
        else if mem "CACHE" r then Ok [OOnce x (norm (before ["CACHE"] r))]
        else Ok [OVar x (Some (norm r))]
    | [] => bad
    end
  else if String.eqb name "list" then
    match args with
    | o :: x :: r =>
        if String.eqb o "APPEND" then Ok [OVar x (Some (get (look w) x ++ r))]
        else if String.eqb o "GET" then
          match r with
          | [i; y] => match number i with
                      | Some i => Ok [OVar y (Some (norm [nth (N.to_nat i) (get (look w) x) "NOTFOUND"]))]
                      | None => bad
                      end
          | _ => bad
          end
        else bad
    | _ => bad
    end
  else if String.eqb name "option" then
    match args with
    | [x; _; v] => Ok [ODefault x [if is_on v then "ON" else "OFF"]]
    | _ => bad
    end
  else if String.eqb name "project" then
    match args with
    | x :: _ =>
        Ok [OVar "PROJECT_NAME" (Some [x]); OVar "PROJECT_SOURCE_DIR" (Some [v_dir w]);
            OVar "PROJECT_BINARY_DIR" (Some [binary_dir (v_dir w)]);
            OVar "PROJECT_IS_TOP_LEVEL"
              (Some [if String.eqb (join (get (look w) "CMAKE_SOURCE_DIR")) (v_dir w) then "ON" else "OFF"])]
    | [] => bad
    end
  else if mem name ["cmake_minimum_required"; "include_guard"] then Ok []
  else if String.eqb name "message" then
    match args with
    | k :: _ => if String.eqb k "FATAL_ERROR" then Stop (join args) else Ok []
    | _ => Ok []
    end
  else if String.eqb name "separate_arguments" then
    match args with [x] => Ok [OVar x (Some (separate (get (look w) x)))] | _ => bad end
  else if String.eqb name "add_compile_options" then Ok [OOptions (v_opts w ++ args)]
  else if String.eqb name "add_link_options" then Ok [OLinkOptions (v_links w ++ args)]
  else if String.eqb name "set_directory_properties" then
    match args with
    | [p; c; v] =>
        if String.eqb p "PROPERTIES" && String.eqb c "COMPILE_OPTIONS" then Ok [OOptions (norm [v])] else bad
    | _ => bad
    end
  else if String.eqb name "add_executable" then
    match args with
    | t :: r => make_target w t Executable (mem "EXCLUDE_FROM_ALL" r) (without ["EXCLUDE_FROM_ALL"] r)
    | [] => bad
    end
  else if String.eqb name "add_library" then
    match args with
    | t :: r =>
        make_target w t (if mem "INTERFACE" r then InterfaceLibrary else Library) (mem "EXCLUDE_FROM_ALL" r)
          (without ["EXCLUDE_FROM_ALL"; "INTERFACE"] r)
    | [] => bad
    end
  else if String.eqb name "add_custom_target" then
    match args with
    | t :: r => make_target w t Custom (negb (match r with a :: _ => String.eqb a "ALL" | [] => false end)) r
    | [] => bad
    end
  else if mem name on_target then
    match args with t :: _ => say_on w [t] name args | [] => bad end
  else if String.eqb name "set_target_properties" then say_on w (before ["PROPERTIES"] args) name args
  else if String.eqb name "set_property" then
    match args with
    | k :: r => if String.eqb k "TARGET" then say_on w (before ["APPEND"; "PROPERTY"] r) name args else bad
    | _ => bad
    end
  else if String.eqb name "FetchContent_MakeAvailable" then
    match args with
    | [x] => Ok [OTargets x (h_provides h x); OSay (Said name args)]
    | _ => bad
    end
  else if mem name recorded then Ok [OSay (Said name args)]
  else if String.eqb name "find_package" then
    (* Python3; the path is only used if it is found *)
    Ok [OVar "Python3_Interpreter_FOUND" (Some [match h_python h with Some _ => "TRUE" | None => "FALSE" end]);
        OVar "Python3_EXECUTABLE" (Some [String "/" (match h_python h with Some p => p | None => "" end)])]
  else if String.eqb name "find_program" then
    match args with
    | x :: _ => Ok [OCache x [match h_program h x with Some p => String "/" p | None => (x ++ "-NOTFOUND")%string end]]
    | _ => bad
    end
  else if String.eqb name "find_library" then
    match args with
    | x :: _ => Ok [OCache x [match h_library h x with Some p => String "/" p | None => (x ++ "-NOTFOUND")%string end]]
    | _ => bad
    end
  else if String.eqb name "check_cxx_symbol_exists" then
    match args with
    | [s; _; x] => Ok [OCache x [if h_symbol h s then "1" else ""]]
    | _ => bad
    end
  else if String.eqb name "file" then
    match args with
    | [k; _; _; s; x] =>
        if String.eqb k "DOWNLOAD" && String.eqb s "STATUS" then
          Ok [OVar x (Some [String (if h_download h then "0" else "1")%char "";
                            if h_download h then "No error" else "Failed"])]
        else bad
    | _ => bad
    end
  else if String.eqb name "cmake_path" then
    match args with
    | [k; _; n; o; y] =>
        if String.eqb k "REPLACE_FILENAME" && String.eqb o "OUTPUT_VARIABLE" then Ok [OVar y (Some [String "/" n])] else bad
    | _ => bad
    end
  else if String.eqb name "cmake_parse_arguments" then
    match args with
    | p :: a :: b :: c :: r => Ok (map (fun e => OVar (fst e) (snd e)) (bind_args p (semis a) (semis b) (semis c) r))
    | _ => bad
    end
  else if String.eqb name "get_target_property" then
    match args with
    | [x; t; k] =>
        if String.eqb k "ALIASED_TARGET" then
          if has w t then
            Ok [OVar x (Some [match h_alias h t with Some u => u | None => (x ++ "-NOTFOUND")%string end])]
          else Stop ("no target " ++ t)
        else bad
    | _ => bad
    end
  else bad.
Definition run_command (st : state) (name : string) (args : list string) : result :=
  match effects (view_of st) name args with
  | Ok l => Done (acts l st) Next
  | Stop why => Fatal why
  | Bad what => Unknown what
  end.

(** include of a module that comes with CMake. *)
Definition install_dirs : list (string * value) :=
  [("CMAKE_INSTALL_LIBDIR", [h_libdir h]); ("CMAKE_INSTALL_INCLUDEDIR", ["include"]);
   ("CMAKE_INSTALL_DATAROOTDIR", ["share"])].
Definition module_ops (m : string) : option (list op) :=
  if String.eqb m "GNUInstallDirs" then Some (map (fun p => ODefault (fst p) (snd p)) install_dirs)
  else if mem m modules then Some []
  else None.
Definition run_module (st : state) (m : string) : result :=
  match module_ops m with Some l => Done (acts l st) Next | None => Unknown m end.

(** One command; ex runs a list of commands, lp a loop. *)
Definition then_ (ex : state -> list stmt -> result) (r : result) (rest : list stmt) : result :=
  match r with Done st Next => ex st rest | _ => r end.
(** return() ends the file only. *)
Definition after_file (ex : state -> list stmt -> result) (r : result) (rest : list stmt) : result :=
  match r with Done st _ => ex st rest | _ => r end.
(** The end of a scope: the variables are again those before, changed by set(... PARENT_SCOPE). *)
Definition leave (old st : state) : state :=
  with_dir (with_up (with_vars st (fold_left (fun f p => upd f (fst p) (Some (snd p))) (up st) (vars old))) (up old))
    (dir old) (excl old) (dopts old) (dlink old).
Definition enter_dir (d : string) (x : bool) : list op :=
  [OEnter d x; OVar "CMAKE_CURRENT_SOURCE_DIR" (Some [d]); OVar "CMAKE_CURRENT_BINARY_DIR" (Some [binary_dir d])].
Definition enter_function (params args : list string) : list op :=
  map (fun p => OVar (fst p) (Some [snd p])) (combine params args) ++ [OVar "ARGN" (Some (skipn (List.length params) args))].
Definition guard (b : list stmt) : bool :=
  match b with Do c _ :: _ => String.eqb c "include_guard" | _ => false end.

Definition step_do (ex : state -> list stmt -> result) (st : state) (name : string) (args : list string)
    (rest : list stmt) : result :=
  if String.eqb name "return" then Done st Returned
  else if String.eqb name "include" then
    match args with
    | [p] =>
        match files p with
        | None => then_ ex (run_module st p) rest
        | Some b =>
            if guard b && guarded st p then ex st rest
            else after_file ex (ex (if guard b then act (OGuard p) st else st) b) rest
        end
    | _ => Unknown name
    end
  else if String.eqb name "add_subdirectory" then
    match args with
    | p :: r =>
        let d := under (dir st) p in
        match files (d ++ "/CMakeLists.txt") with
        | None => Fatal ("no CMakeLists.txt in " ++ d)
        | Some b =>
            match ex (acts (enter_dir d (excl st || mem "EXCLUDE_FROM_ALL" r)) (with_up st [])) b with
            | Done st' _ => ex (leave st st') rest
            | r => r
            end
        end
    | [] => Unknown name
    end
  else if String.eqb name "find_package" && package args then
    match args with
    | p :: _ =>
        match files (package_dir ++ "/" ++ p ++ "-config.cmake") with
        | Some b => after_file ex (ex (act (OVar "CMAKE_CURRENT_LIST_DIR" (Some [package_dir])) st) b) rest
        | None => Fatal ("no package " ++ p)
        end
    | [] => Unknown name
    end
  else if mem name built_in then then_ ex (run_command st name args) rest
  else
    match funcs st name with
    | None => Fatal ("no command " ++ name)
    | Some f =>
        if f_macro f then then_ ex (ex st (map (subst (combine (f_params f) args)) (f_body f))) rest
        else
          match ex (acts (enter_function (f_params f) args) (with_up st [])) (f_body f) with
          | Done st' _ => ex (leave st st') rest
          | r => r
          end
    end.

Definition step (ex : state -> list stmt -> result) (lp : state -> string -> value -> list stmt -> result)
    (st : state) (l : list stmt) : result :=
  match l with
  | [] => Done st Next
  | If bs e :: rest =>
      match bs with
      | [] => then_ ex (ex st e) rest
      | (c, b) :: bs =>
          match condition h (lookup st) c with
          | None => Unknown "if"
          | Some true => then_ ex (ex st b) rest
          | Some false => ex st (If bs e :: rest)
          end
      end
  | Define m x ps b :: rest => ex (act (OFunction x (mkfun m ps b)) st) rest
  | Foreach args b :: rest =>
      match plain_words args with
      | [x; i; l; y] =>
          if String.eqb i "IN" && String.eqb l "LISTS" then then_ ex (lp st x (get (lookup st) y) b) rest
          else Unknown "foreach"
      | _ => Unknown "foreach"
      end
  | Do name args :: rest => step_do ex st name (expand_all h (lookup st) args) rest
  end.

Fixpoint exec (n : nat) (st : state) (l : list stmt) {struct n} : result :=
  match n with
  | O => NoFuel
  | S n => step (exec n) (loop n) st l
  end
with loop (n : nat) (st : state) (x : string) (vs : value) (b : list stmt) {struct n} : result :=
  match n with
  | O => NoFuel
  | S n =>
      match vs with
      | [] => Done st Next
      | v :: vs =>
          match exec n (act (OVar x (Some [v])) st) b with
          | Done st Next => loop n st x vs b
          | r => r
          end
      end
  end.

End Run.
