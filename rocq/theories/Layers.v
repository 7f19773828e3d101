(** Programs on nested options: dereferencing to some depth and calling a member there.

    Models: README.md 109-129 (the overview of nested options), with option.hpp 2972-3006 (reset, emplace), 3031-3065 (operator*,
    operator-> and get, each with its check), 2969 (has_value).  The object is an option<option<...<T>>> with [n] options; a statement
    names how often the object is dereferenced before the member is called.
    Simplifications: the arguments of emplace are the bytes of a T from which every inner option is constructed in place. *)
From Coq Require Import Arith NArith List Bool Ascii String.
From Verif Require Import Outcome Words Types OptBytes.
Import ListNotations.
Open Scope N_scope.
Open Scope list_scope.

Inductive stmt :=
| Reset (k : nat)                 (* k times *, then .reset() *)
| Emplace (k : nat) (v : bytes)   (* k times *, then .emplace(v) *)
| HasValue (k : nat)              (* k times *, then .has_value() *)
| Value.                          (* the T itself *)

(** What a statement lets the user see. *)
Inductive seen := Has (h : bool) | Bytes (v : bytes).

(** Read the object [k] layers down. *)
Fixpoint read_at (k : nat) (t : ty) (b : bytes) : res bytes :=
  match k, t with
  | O, _ => Ok b
  | S k', TOption t' => let* h := opt_has_value t' b in verify h (read_at k' t' (slice 0 (sizeof t') b))
  | S _, _ => UB
  end%res.

Definition exec (td : bool) (n : nat) (t : ty) (s : stmt) (b : bytes) : res (bytes * list seen) :=
  match s with
  | Reset k => rmap (fun b' => (b', [])) (update_at k (nest n t) (opt_reset td (nest (n - k - 1) t)) b)
  | Emplace k v =>
      let i := (n - k - 1)%nat in
      rmap (fun b' => (b', []))
        (update_at k (nest n t)
           (fun c => let* w := build i t i v (slice 0 (sizeof (nest i t)) c) in opt_emplace td (nest i t) w c)%res b)
  | HasValue k => (let* c := read_at k (nest n t) b in rmap (fun h => (b, [Has h])) (opt_has_value (nest (n - k - 1) t) c))%res
  | Value => rmap (fun c => (b, [Bytes c])) (read_at n (nest n t) b)
  end.

Fixpoint run (td : bool) (n : nat) (t : ty) (p : list stmt) (b : bytes) : res (bytes * list seen) :=
  match p with
  | [] => Ok (b, [])
  | s :: p =>
      (let* r := exec td n t s b in
       rmap (fun q => (fst q, snd r ++ snd q)) (run td n t p (fst r)))%res
  end.

(** A member of option can be called after at most n - 1 dereferences: after n there is a T. *)
Definition compiles (n : nat) (s : stmt) : bool :=
  match s with
  | Reset k | Emplace k _ | HasValue k => (k <? n)%nat
  | Value => true
  end.

(** README.md 112-128. *)
Definition readme_bool : list stmt := [Reset 1; Reset 0].
Definition readme_float : list stmt := [Reset 5; Reset 4; Reset 3; Reset 2; Reset 1; Reset 0].

(** How the README writes a statement about the object [x]. *)
Definition show (x : string) (s : stmt) : string :=
  match s with
  | Reset 0 => x ++ ".reset();"
  | Reset 1 => x ++ "->reset();"
  | Reset k => "(" ++ String.concat "" (repeat "*"%string k) ++ x ++ ").reset();"
  | _ => ""
  end%string.
Definition readme_112 : list string := [
  "opt::option<opt::option<bool>> a{true};";
  "// Uses `bool` value to store two ""has value"" states";
  "static_assert(sizeof(a) == sizeof(bool));";
  "";
  "a->reset();";
  "a.reset();";
  "";
  "opt::option<opt::option<opt::option<opt::option<opt::option<float>>>>> b;";
  "// Uses `bool` value to store emptiness level value";
  "static_assert(sizeof(b) == sizeof(float));";
  "";
  "(*****b).reset();";
  "(****b).reset();";
  "(***b).reset();";
  "(**b).reset();";
  "b->reset();";
  "b.reset();"]%string.
