(** Properties of programs on nested options and of the overview in README.md.  Statements only: each theorem is
    closed by [exact], with its assumptions printed, and each is followed by an example that meets its hypotheses. *)
From Coq Require Import Arith NArith List Bool Lia String.
From Verif Require Import Outcome Words Types OptBytes TypesSpec FindingsFacts Layers LayersSpec LayersFacts ReadmeFacts.
Import ListNotations.
Open Scope list_scope.

(** C89: a program of any length on an object of any number of options, nested in each other: it resets, refills and asks layers.
    How many layers are engaged and the innermost value say all about it: which statements fail their check, and what the user sees. *)
Theorem C89_programs : forall td n t p, wf (nest n t) -> forallb (compiles n) p = true -> Forall (given t) p ->
  forall s b, in_state n t s b ->
  match spec_run n t s p with
  | Some (s', o) => exists b' o', run td n t p b = Ok (b', o') /\ in_state n t s' b' /\ map (observe t) o' = o
  | None => run td n t p b = Verify
  end.
Proof. exact run_ok. Qed.
Print Assumptions C89_programs.
Example C89_programs_ex : in_state 2 TBool (state 2 (VBytes [1%N])) [1%N] /\
  run true 2 TBool [Reset 1; HasValue 0; HasValue 1; Emplace 0 [0%N]; Value] [1%N] =
    Ok ([0%N], [Has true; Has false; Bytes [0%N]]) /\
  spec_run 2 TBool (state 2 (VBytes [1%N])) [Reset 1; HasValue 0; HasValue 1; Emplace 0 [0%N]; Value] =
    Some (state 2 (VBytes [0%N]), [inl true; inl false; inr (VBytes [0%N])]).
Proof. exact programs_ex. Qed.

(** Emptying all layers works from the inside to the outside ... *)
Theorem C89_inside_out : forall td n t s b, (0 < n)%nat -> wf (nest n t) -> in_state n t s b -> (n <= S (engaged s))%nat ->
  exists b', run td n t (inside_out n) b = Ok (b', []) /\ in_state n t (state 0 (leaf s)) b'.
Proof. exact inside_out_ok. Qed.
Print Assumptions C89_inside_out.
Example C89_inside_out_ex : inside_out 3 = [Reset 2; Reset 1; Reset 0] /\
  run true 3 TBool (inside_out 3) [1%N] = Ok ([4%N], []).
Proof. split; vm_compute; reflexivity. Qed.
(** ... if there is a value: on an empty object the first dereference fails its check. *)
Theorem C89_empty : forall td n t b c p, wf (nest n t) -> in_state n t (state 0 VNone) b -> (0 < n)%nat ->
  forallb (compiles n) (c :: p) = true -> Forall (given t) (c :: p) ->
  match c with Reset (S _) | Emplace (S _) _ | HasValue (S _) | Value => True | _ => False end ->
  run td n t (c :: p) b = Verify.
Proof. exact empty_first. Qed.
Print Assumptions C89_empty.

(** The overview of nested options in README.md 111-129, as text. *)
Theorem C89_readme_text :
  map (show "a") readme_bool = firstn 2 (skipn 4 readme_112) /\
  map (show "b") readme_float = skipn 11 readme_112.
Proof. exact readme_text. Qed.
Print Assumptions C89_readme_text.
(** The first object holds true when it is emptied, from the inside to the outside. *)
Theorem C89_readme_bool : forall junk, sized 1 junk -> forall b, build 2 TBool 2 [1%N] junk = Ok b ->
  forallb (compiles 2) readme_bool = true /\ readme_bool = inside_out 2 /\
  exists b', run true 2 TBool readme_bool b = Ok (b', []) /\ decode (nest 2 TBool) b' = VNone.
Proof. exact readme_bool_ok. Qed.
Print Assumptions C89_readme_bool.
(** The second one is empty.  Its first statement does not compile: five dereferences lead to the float.  Without it the rest
    compiles, and fails the check of its first dereference; with a value in the object it would work. *)
Theorem C89_readme_float_refuted : forall junk, sized 4 junk -> forall b, opt_default (nest 4 (TFloat32 false)) junk = Ok b ->
  compiles 5 (Reset 5) = false /\ readme_float = Reset 5 :: inside_out 5 /\
  forallb (compiles 5) (inside_out 5) = true /\
  run true 5 (TFloat32 false) (inside_out 5) b = Verify.
Proof. exact readme_float_fails. Qed.
Print Assumptions C89_readme_float_refuted.
Theorem C89_readme_float_filled : forall v junk b, valid (TFloat32 false) v -> sized 4 junk ->
  build 5 (TFloat32 false) 5 v junk = Ok b ->
  exists b', run true 5 (TFloat32 false) (inside_out 5) b = Ok (b', []) /\ decode (nest 5 (TFloat32 false)) b' = VNone.
Proof. exact readme_float_filled. Qed.
Print Assumptions C89_readme_float_filled.
Example C89_readme_ex : build 2 TBool 2 [1%N] [7%N] = Ok [1%N] /\
  exists b, opt_default (nest 4 (TFloat32 false)) [0; 0; 0; 0]%N = Ok b /\ run true 5 (TFloat32 false) (inside_out 5) b = Verify.
Proof. split; [reflexivity|]. eexists. split; vm_compute; reflexivity. Qed.

(** The static_asserts of the overview (README.md 45-122), for all places of the members: the option is as large as the value. *)
Theorem C89_readme_sizes : forall o0 o1 o2,
  let int := TOpaque 4 4 in let char := TOpaque 1 1 in
  let same t := sizeof (TOption t) = sizeof t in
  let S1 := TTuple [(0%nat, int); (4%nat, char); (5%nat, TBool)] 8 4 in
  same (TFloat32 false) /\ same (TFloat32 true) /\ same TPtr64 /\
  same (TTuple [(o0, int); (o1, int); (o2, TFloat32 false)] 12 4) /\
  same S1 /\ same (TTuple [(0%nat, S1); (8%nat, TTuple [(o0, int); (o1, int)] 8 4)] 16 4) /\
  sizeof (nest 2 TBool) = sizeof TBool /\ sizeof (nest 5 (TFloat32 false)) = sizeof (TFloat32 false).
Proof. exact readme_sizes. Qed.
Print Assumptions C89_readme_sizes.
