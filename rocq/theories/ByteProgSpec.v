(** Programs over values: what the calls of ByteProg.v should do, without bytes, flags or levels. *)
From Coq Require Import ZArith NArith List Bool.
From Verif Require Import Outcome Words Ints Types OptBytes TypesSpec Lifetime History ByteClass ByteProg.
Import ListNotations.

(** The value at the end of a path; [None] if the path leads through an empty option. *)
Fixpoint vget (p : path) (v : val) : option val :=
  match p with
  | [] => Some v
  | Deref :: p => match v with VSome w => vget p w | _ => None end
  | Field i :: p =>
      match v with
      | VTup vs => match nth_error vs i with Some w => vget p w | None => None end
      | _ => None
      end
  end.

(** [v] with the value at the end of the path replaced by [x]. *)
Fixpoint vset (p : path) (x v : val) : val :=
  match p with
  | [] => x
  | Deref :: p => match v with VSome w => VSome (vset p x w) | v => v end
  | Field i :: p =>
      match v with
      | VTup vs => match nth_error vs i with Some w => VTup (put vs i (vset p x w)) | None => v end
      | v => v
      end
  end.

(** Values of the variables; [None]: not declared. *)
Definition bvars : Type := list (option val).

Inductive sres : Type :=
| SDone (a : bvars) (s : option obs)
| SStop       (* a check fails: access to an empty option *)
| SWrong.     (* the text is wrong: use of an undeclared variable, second declaration *)

Definition found (a : bvars) (p : place) (f : val -> sres) : sres :=
  match nth_error a (fst p) with
  | Some (Some v) => match vget (snd p) v with Some w => f w | None => SStop end
  | _ => SWrong
  end.

Definition write (a : bvars) (p : place) (x : val) : bvars :=
  match nth_error a (fst p) with
  | Some (Some v) => put a (fst p) (Some (vset (snd p) x v))
  | _ => a
  end.

Definition declare (a : bvars) (x : nat) (r : sres) : sres :=
  match nth_error a x with
  | Some None => r
  | _ => SWrong
  end.

Definition sstep (o : op val) (a : bvars) : sres :=
  match o with
  | ONew x None => declare a x (SDone (put a x (Some VNone)) None)
  | ONew x (Some v) => declare a x (SDone (put a x (Some (VSome v))) None)
  | OObj x v => declare a x (SDone (put a x (Some v)) None)
  | OCopy x q => declare a x (found a q (fun w => SDone (put a x (Some w)) None))
  | OTake x q => declare a x (found a q (fun w => SDone (put (write a q VNone) x (Some w)) None))
  | OEnd x => match nth_error a x with Some (Some _) => SDone (put a x None) None | _ => SWrong end
  | OReset p => found a p (fun _ => SDone (write a p VNone) None)
  | OAssign p v | OEmplace p v => found a p (fun _ => SDone (write a p (VSome v)) None)
  | OTryEmplace p v => found a p (fun w =>
      match w with
      | VNone => SDone (write a p (VSome v)) None
      | _ => SDone a None
      end)
  | OCopyAssign p q => found a q (fun w => found a p (fun _ => SDone (write a p w) None))
  | OSwap p q => found a q (fun w => found a p (fun v => SDone (write (write a q v) p w) None))
  | OWrite p v => found a p (fun _ => SDone (write a p v) None)
  | OHas p => found a p (fun w => SDone a (Some (SeenHas (match w with VNone => false | _ => true end))))
  | OGet p => found a p (fun w => match w with VSome v => SDone a (Some (SeenValue v)) | _ => SStop end)
  end.

Fixpoint srun (os : list (op val)) (a : bvars) : list obs * sres :=
  match os with
  | [] => ([], SDone a None)
  | o :: os =>
      match sstep o a with
      | SDone a' s =>
          let (tr, r) := srun os a' in
          (match s with Some s => s :: tr | None => tr end, r)
      | r => ([], r)
      end
  end.

Section Relation.
Context (env : list (nat * ty)).

(** Members do not overlap. *)
Definition apart (t : ty) : Prop := forall i j oi ti oj tj, i <> j ->
  field t i = Some (oi, ti) -> field t j = Some (oj, tj) -> (oi + sizeof ti <= oj \/ oj + sizeof tj <= oi)%nat.

(** ... for the aggregates that a path leads through. *)
Fixpoint clear_path (p : path) (u : ty) : Prop :=
  match p with
  | [] => True
  | Deref :: p => match u with TOption t => clear_path p t | _ => False end
  | Field i :: p => match field u i with Some (_, t) => apart u /\ clear_path p t | None => False end
  end.

Definition clear_place (p : place) : Prop :=
  match nth_error env (fst p) with Some (_, u) => clear_path (snd p) u | None => False end.

(** The place is an option<T>. *)
Definition is_option (p : place) (t : ty) : Prop := clear_place p /\ place_ty env p = Some (TOption t).

(** Places have the types that the calls need and arguments are values of their types. *)
Definition typed (o : op bytes) : Prop :=
  match o with
  | ONew x i => exists t, is_option (x, []) t /\ match i with Some v => valid t v | None => True end
  | OObj x v => exists t, place_ty env (x, []) = Some t /\ valid t v
  | OCopy x q | OTake x q => exists t, is_option (x, []) t /\ is_option q t
  | OEnd x => True
  | OReset p | OHas p | OGet p => exists t, is_option p t
  | OAssign p v | OEmplace p v | OTryEmplace p v => exists t, is_option p t /\ valid t v
  | OCopyAssign p q | OSwap p q => exists t, is_option p t /\ is_option q t
  | OWrite p v => exists t, clear_place p /\ place_ty env p = Some t /\ valid t v
  end.

(** The same call with its arguments given by value. *)
Definition inner (p : place) : ty :=
  match place_ty env p with Some (TOption t) => t | _ => TBool end.
Definition outer (p : place) : ty :=
  match place_ty env p with Some t => t | None => TBool end.
Definition meaning (o : op bytes) : op val :=
  match o with
  | ONew x i => ONew x (option_map (decode (inner (x, []))) i)
  | OObj x v => OObj x (decode (outer (x, [])) v)
  | OCopy x q => OCopy x q
  | OTake x q => OTake x q
  | OEnd x => OEnd x
  | OReset p => OReset p
  | OAssign p v => OAssign p (decode (inner p) v)
  | OEmplace p v => OEmplace p (decode (inner p) v)
  | OTryEmplace p v => OTryEmplace p (decode (inner p) v)
  | OCopyAssign p q => OCopyAssign p q
  | OSwap p q => OSwap p q
  | OWrite p v => OWrite p (decode (outer p) v)
  | OHas p => OHas p
  | OGet p => OGet p
  end.

(** Variables of well-formed types lie in the memory and do not overlap. *)
Definition laid_out (n : nat) : Prop :=
  (forall x o u, nth_error env x = Some (o, u) -> wf u /\ (o + sizeof u <= n)%nat) /\
  (forall x y o u o' u', x <> y -> nth_error env x = Some (o, u) -> nth_error env y = Some (o', u') ->
     (o + sizeof u <= o' \/ o' + sizeof u' <= o)%nat).

(** The memory holds these values. *)
Definition represents (m : bytes) (a : bvars) : Prop :=
  length a = length env /\
  forall x o u v, nth_error env x = Some (o, u) -> nth_error a x = Some (Some v) ->
    valid u (slice o (sizeof u) m) /\ decode u (slice o (sizeof u) m) = v.

(** A byte of no variable. *)
Definition elsewhere (i : nat) : Prop :=
  forall x o u, nth_error env x = Some (o, u) -> (i < o \/ o + sizeof u <= i)%nat.
End Relation.
