(** Preprocessing directives: a small interpreter for the conditional part of a C++ header.

    Models the language in which include/opt/option.hpp 18-330, 490-511 is written: object-like and
    one-parameter macros, #if/#ifdef/#elif/#else, #define, #error, #include, `defined`,
    `__has_include` and the `__has_...` operators ([cpp.cond], [cpp.replace] of C++17).

    Simplified: an expression is given as a tree, an included file is given as the macros it leaves
    defined, and a replacement list is one of the shapes of [body] (a [Text] is any replacement that
    is not a number, and no `#if` of the header tests one). *)

From Coq Require Import ZArith String List Bool.
Import ListNotations.
Open Scope Z_scope.
Open Scope string_scope.

(** The replacement list of a macro. *)
Inductive body :=
| Num (z : Z)                  (* #define X 1 *)
| Alias (n : string)           (* #define X Y *)
| File (f : string)            (* #define X <path> *)
| Forward (op : string)        (* #define X(x) op(x) *)
| Const (z : Z)                (* #define X(x) (0) *)
| Operator                     (* an operator of the preprocessor, such as __has_builtin *)
| Text (s : string).           (* any other replacement *)

Definition body_eqb (a b : body) : bool :=
  match a, b with
  | Num x, Num y => Z.eqb x y
  | Alias x, Alias y => String.eqb x y
  | File x, File y => String.eqb x y
  | Forward x, Forward y => String.eqb x y
  | Const x, Const y => Z.eqb x y
  | Operator, Operator => true
  | Text x, Text y => String.eqb x y
  | _, _ => false
  end.

(** Macros defined at a point of the translation unit. *)
Definition macros := string -> option body.

Definition define (s : macros) (n : string) (b : body) : macros :=
  fun m => if String.eqb n m then Some b else s m.

(** What a compiler answers that no macro tells: which files exist and what they leave defined, and
    the answers of the operators. *)
Record world := {
  files : string -> option (list (string * body));
  answers : string -> string -> Z
}.

Inductive expr :=
| Lit (z : Z)
| Ident (n : string)                 (* a macro, replaced; 0 if there is none *)
| Defined (n : string)
| Call (f arg : string)              (* f(arg) *)
| HasInclude (f : string)            (* __has_include(<f>) *)
| HasIncludeOf (n : string)          (* __has_include(N) with N a macro *)
| Not (e : expr)
| And (a b : expr)
| Or (a b : expr)
| Gt (a b : expr)
| Ge (a b : expr).

Inductive code :=
| Skip
| Then (a b : code)
| Define (n : string) (b : body)
| Include (f : string)
| IncludeOf (n : string)             (* #include N with N a macro *)
| Error (message : string)
| If (c : expr) (yes no : code).

(** Why a header is rejected. *)
Inductive stop :=
| Failed (message : string)          (* an #error *)
| Malformed                          (* a condition that is not an expression *)
| Missing (f : string)               (* an included file that does not exist *)
| Redefined (n : string).            (* a second, different definition *)

Inductive result := Done (s : macros) | Stopped (why : stop).

Definition is_some {A} (x : option A) : bool :=
  match x with Some _ => true | None => false end.

Definition truth (b : bool) : Z := if b then 1 else 0.
Definition holds (z : Z) : bool := negb (Z.eqb z 0).

Section Run.
  Context (w : world).

  (** Replacement of an identifier in a condition: at most two names deep, as everywhere in the
      header. *)
  Definition value_of (s : macros) (n : string) : option Z :=
    match s n with
    | None => Some 0
    | Some (Num z) => Some z
    | Some (Alias m) =>
        match s m with
        | None => Some 0
        | Some (Num z) => Some z
        | Some _ => None
        end
    | Some _ => None
    end.

  Definition call (s : macros) (f arg : string) : option Z :=
    match s f with
    | Some Operator => Some (answers w f arg)
    | Some (Const z) => Some z
    | Some (Forward op) =>
        match s op with
        | Some Operator => Some (answers w op arg)
        | _ => None
        end
    | _ => None
    end.

  Definition lift2 (f : Z -> Z -> Z) (a b : option Z) : option Z :=
    match a, b with Some x, Some y => Some (f x y) | _, _ => None end.

  Fixpoint evaluate (s : macros) (e : expr) : option Z :=
    match e with
    | Lit z => Some z
    | Ident n => value_of s n
    | Defined n => Some (truth (is_some (s n)))
    | Call f arg => call s f arg
    | HasInclude f => Some (truth (is_some (files w f)))
    | HasIncludeOf n =>
        match s n with
        | Some (File f) => Some (truth (is_some (files w f)))
        | _ => None
        end
    | Not a => option_map (fun x => truth (negb (holds x))) (evaluate s a)
    | And a b => lift2 (fun x y => truth (holds x && holds y)) (evaluate s a) (evaluate s b)
    | Or a b => lift2 (fun x y => truth (holds x || holds y)) (evaluate s a) (evaluate s b)
    | Gt a b => lift2 (fun x y => truth (Z.ltb y x)) (evaluate s a) (evaluate s b)
    | Ge a b => lift2 (fun x y => truth (Z.leb y x)) (evaluate s a) (evaluate s b)
    end.

  Definition add (s : macros) (n : string) (b : body) : result :=
    match s n with
    | None => Done (define s n b)
    | Some b' => if body_eqb b' b then Done s else Stopped (Redefined n)
    end.

  Definition bind (r : result) (k : macros -> result) : result :=
    match r with Done s => k s | Stopped why => Stopped why end.

  (** An included file may redefine what it likes (it can use #undef). *)
  Fixpoint add_all (s : macros) (l : list (string * body)) : macros :=
    match l with
    | [] => s
    | (n, b) :: l => add_all (define s n b) l
    end.

  Definition include (s : macros) (f : string) : result :=
    match files w f with
    | Some l => Done (add_all s l)
    | None => Stopped (Missing f)
    end.

  Fixpoint run (c : code) (s : macros) : result :=
    match c with
    | Skip => Done s
    | Then a b => bind (run a s) (run b)
    | Define n b => add s n b
    | Include f => include s f
    | IncludeOf n =>
        match s n with
        | Some (File f) => include s f
        | _ => Stopped Malformed
        end
    | Error m => Stopped (Failed m)
    | If e yes no =>
        match evaluate s e with
        | None => Stopped Malformed
        | Some z => if holds z then run yes s else run no s
        end
    end.

End Run.

Declare Scope code_scope.
Delimit Scope code_scope with code.
Notation "a ;; b" := (Then a b) (at level 60, right associativity) : code_scope.

(** #ifdef and #ifndef. *)
Definition IfDef (n : string) (yes no : code) : code := If (Defined n) yes no.
Definition IfNDef (n : string) (yes no : code) : code := If (Not (Defined n)) yes no.
