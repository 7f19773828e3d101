(** Properties of class template argument deduction (C78). *)
From Coq Require Import List Bool Arith.
From Verif Require Import Results Deduce DeduceSpec DeduceFacts.
Import ListNotations.

(** C78: for every expression exactly one guide is better than all others, so option{e} is never ambiguous. *)
Theorem C78_one_guide : forall e, exists g, best e = Some g /\ In g guides /\ viable e g = true /\
  forall h, In h guides -> viable e h = true -> h <> g -> better g h = true.
Proof. exact best_unique. Qed.
Print Assumptions C78_one_guide.

(** option{e} is a copy of e if e is an option and else an option of the value, made from e in the expected way;
    it compiles unless the value is opt::none or std::in_place. *)
Theorem C78_deduced : forall banned e, ctad banned e =
  if may_hold banned (held e) then Some (Q false Val (Opt (held e))) else None.
Proof. exact ctad_held. Qed.
Print Assumptions C78_deduced.
Theorem C78_made : forall banned e, may_hold banned (held e) = true ->
  ctad_value banned e = Some (Q false Val (Opt (held e)), made_how e).
Proof. exact ctad_made. Qed.
Print Assumptions C78_made.
Example C78_deduced_ex :
  let int := Obj 0 in
  ctad (Nat.eqb 7) (Q true LRef int) = Some (Q false Val (Opt (Q false Val int))) /\
  ctad_value (Nat.eqb 7) (Q true LRef (Opt (Q true LRef int))) = Some (Q false Val (Opt (Q true LRef int)), Copied) /\
  ctad_value (Nat.eqb 7) (Q false Val (Opt (Q false Val int))) = Some (Q false Val (Opt (Q false Val int)), Built) /\
  ctad_value (Nat.eqb 7) (Q false Val int) = Some (Q false Val (Opt (Q false Val int)), Moved) /\
  ctad (Nat.eqb 7) (Q false Val (Obj 7)) = None.
Proof. repeat split. Qed.

(** Wrapping any number of times by deduction gives one layer, by make_option as many layers as calls. *)
Theorem C78_layers : forall banned t n, ordinary t -> may_hold banned t = true ->
  Nat.iter (S n) (fun x => bind x (ctad banned)) (Some t) = Some (wrapped 1 t).
Proof. exact layers_ctad. Qed.
Print Assumptions C78_layers.
Theorem C78_make_layers : forall t n, ordinary t ->
  Nat.iter n (fun x => bind x (fun e => bind (make_option_value e) (fun p => Some (fst p)))) (Some t) = Some (wrapped n t).
Proof. exact layers_make. Qed.
Print Assumptions C78_make_layers.
Example C78_layers_ex : ordinary (Q false Val (Obj 3)) /\ may_hold (Nat.eqb 7) (Q false Val (Obj 3)) = true /\
  wrapped 2 (Q false Val (Obj 3)) = Q false Val (Opt (Q false Val (Opt (Q false Val (Obj 3))))).
Proof. repeat split. intros [t E]. discriminate E. Qed.

(** make_option(e) is option{e} exactly if e is not an option. *)
Theorem C78_make_exact : forall banned e, may_hold banned (held e) = true ->
  ((exists h, make_option_value e = Some (Q false Val (Opt (held e)), h)) <-> ~ holds_option e).
Proof. exact ctad_make. Qed.
Print Assumptions C78_make_exact.

(** The deduction inside zip gives the declared return type. *)
Theorem C78_zip_return : forall banned l, zip_return banned l = Some (Q false Val (Opt (Q false Val (Tup l)))).
Proof. exact zip_return_right. Qed.
Print Assumptions C78_zip_return.

(** The code that the documentation gives for map, unzip and zip has the type of the function exactly if ... *)
Theorem C78_map_exact : forall banned R, may_hold banned (held R) = true -> forall t h, map_value R = Some (t, h) ->
  (doc_map banned R = Some t <-> is_ref R = false /\ ~ holds_option R).
Proof. exact doc_map_exact. Qed.
Print Assumptions C78_map_exact.
Theorem C78_unzip_exact : forall banned s T E, may_hold banned (held E) = true ->
  forall p, arrow_of s T = Some p -> forall g r h, unzip_element g E = Some (r, h) ->
  (doc_unzip_element banned s T E = Some r <-> ordinary E).
Proof. exact doc_unzip_exact. Qed.
Print Assumptions C78_unzip_exact.
Theorem C78_zip_exact : forall l r h, zip_of l = Some (r, h) -> forall d, doc_zip l = Some d ->
  (d = r <-> Forall (fun p => q_const (snd p) = false /\ q_kind (snd p) = Val) l /\ ~ one_tuple (map snd l)).
Proof. exact doc_zip_exact. Qed.
Print Assumptions C78_zip_exact.
Example C78_zip_ex :
  let int := Q false Val (Obj 0) in let l := [(mlv, int); (mrv, Q false Val (Opt int))] in
  exists r h d, zip_of l = Some (r, h) /\ doc_zip l = Some d /\ d = r.
Proof. do 3 eexists. repeat split. Qed.

(** ... so it differs for a function that returns an option or a reference, a member that is an option, const or
    a reference, an option of a reference and a single option of a tuple. *)
Theorem C78_documented_refuted : let int := Obj 0 in let oint := Opt (Q false Val int) in
  (exists t h, map_value (Q false Val oint) = Some (t, h) /\ doc_map (Nat.eqb 7) (Q false Val oint) <> Some t) /\
  (exists t h, map_value (Q false LRef int) = Some (t, h) /\ doc_map (Nat.eqb 7) (Q false LRef int) <> Some t) /\
  (exists t h, unzip_element (Q false LRef (Tup [Q true Val int])) (Q true Val int) = Some (t, h) /\
     doc_unzip_element (Nat.eqb 7) mlv (Q false Val (Tup [Q true Val int])) (Q true Val int) <> Some t) /\
  (exists t h d, zip_of [(mlv, Q false LRef int)] = Some (t, h) /\ doc_zip [(mlv, Q false LRef int)] = Some d /\ d <> t) /\
  (exists t h d, zip_of [(mlv, Q false Val (Tup []))] = Some (t, h) /\ doc_zip [(mlv, Q false Val (Tup []))] = Some d /\ d <> t).
Proof. repeat split; repeat eexists; intros H; discriminate H. Qed.
Print Assumptions C78_documented_refuted.
