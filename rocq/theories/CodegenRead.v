(** What the comments of test/codegen/sample.cpp state: headings with a name and perhaps a condition, and the
    instructions under them.  Independent of the functions of Codegen.v that read them. *)
From Coq Require Import PeanoNat NArith Bool List Ascii String.
From Verif Require Import PyText Codegen ExamplesSpec.
Import ListNotations.
Open Scope nat_scope.
Open Scope list_scope.

(** test/codegen/run.py 61: @ name { condition } : with white space allowed before and after the braces, which
    may be missing.  Anything may follow. *)
Definition closes (s g : text) : Prop :=
  g <> [] /\ exists sp rest, blank sp /\ s = g ++ "}"%char :: sp ++ ":"%char :: rest.
Definition tail_fits (s : text) (c : option text) : Prop :=
  exists sp, blank sp /\
  match c with
  | None => exists rest, s = sp ++ ":"%char :: rest
  | Some g => exists s', s = sp ++ "{"%char :: s' /\ closes s' g
  end.
Definition heading_fits (s n : text) (c : option text) : Prop :=
  n <> [] /\ exists t, s = "@"%char :: n ++ t /\ tail_fits t c.
Definition size (c : option text) : nat := match c with Some g => List.length g | None => 0 end.
(** Of the ways to read a heading: the shortest name, and for it the longest condition. *)
Definition heading (s n : text) (c : option text) : Prop :=
  heading_fits s n c /\ (forall n' c', heading_fits s n' c' -> List.length n <= List.length n') /\
  (forall c', heading_fits s n c' -> size c' <= size c).
Definition no_heading (s : text) : Prop := forall n c, ~ heading_fits s n c.

Section File.
Context (file : list text).

(** Lines are counted from one. *)
Definition at_line (i : nat) (e : text) : Prop := exists j l, i = S j /\ nth_error file j = Some l /\ beside l e /\ e <> [].
Definition heading_at (i : nat) (n : text) (c : option text) : Prop := exists e, at_line i e /\ heading e n c.
Definition instruction_at (i : nat) (e : text) : Prop := at_line i e /\ no_heading e.

Definition increasing (l : list nat) : Prop := forall a i b j d, l = a ++ i :: b ++ j :: d -> i < j.

(** The listings of the file: one for every heading, with the instructions up to the next one. *)
Definition states (ss : list section) : Prop :=
  (forall i n c, (exists s, In s ss /\ line s = i /\ name s = n /\ conditions s = c) <->
     exists c0, heading_at i n c0 /\ c = option_map lower c0) /\
  (forall s i e, In s ss -> (In (i, e) (body s) <->
     line s < i /\ instruction_at i e /\ forall j n c, heading_at j n c -> ~ (line s < j < i))) /\
  increasing (map line ss) /\ (forall s, In s ss -> increasing (map fst (body s))).
(** An instruction that stands under no heading. *)
Definition orphan : Prop := exists i e, instruction_at i e /\ forall j n c, heading_at j n c -> i < j.
End File.
