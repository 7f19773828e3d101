(** Properties of zip, zip_with and unzip (C31) and of options of tuples (C21), for tuples of any length. *)
From Coq Require Import NArith ZArith Bool List Lia ZifyBool ZifyN.
From Verif Require Import Outcome Words Lifetime LifetimeSpec LifetimeFacts Api ApiSpec ApiFacts Tuple TupleSpec TupleFacts ZipFacts
  ZipLaws Classes ClassesFacts.
Import ListNotations.
Open Scope N_scope.

(** The operands of the examples: some(5), some(6), some(7) and some(5), none, some(7). *)
Definition sh0 : shape := mkshape true false.
Definition Cs3 : list (cls schedule) := [fussy 3 false; fussy 0 false; fussy 2 false].
Definition Ss3 : sems Cs3 := (fussy_sem 3 false, (fussy_sem 0 false, (fussy_sem 2 false, tt))).
Definition all3 : cells Cs3 :=
  (mkcell (C := fussy 3 false) (8 : N) 0 true,
    (mkcell (C := fussy 0 false) (6 : N) 1 true, (mkcell (C := fussy 2 false) (9 : N) 0 true, tt))).
Definition two3 : cells Cs3 :=
  (mkcell (C := fussy 3 false) (8 : N) 0 true,
    (mkcell (C := fussy 0 false) (6 : N) 0 false, (mkcell (C := fussy 2 false) (9 : N) 0 true, tt))).
Definition raw3 : raw (tuple_cls sh0 Cs3) := (0, (0, (0, tt))).
Definition cell3 : cell (tuple_cls sh0 Cs3) := mkcell raw3 0 false.
Definition zero {W} (_ : W) : Z := 0%Z.

Lemma elements3 : every (element zero) Cs3 Ss3 /\ every (@quiet schedule) Cs3 Ss3 /\ invs Cs3 Ss3 all3 /\ invs Cs3 Ss3 two3.
Proof.
  split; [repeat (split; [apply fussy_element; unfold umax_base; lia|]); exact I|].
  split; [repeat (split; [apply fussy_quiet; auto|]); exact I|].
  split; repeat split; cbn; intros; try discriminate; lia.
Qed.

(** C31: a tuple of classes that meet the contract meets it. *)
Theorem C31_tuple : forall W (count : W -> Z) sh Cs (Ss : sems Cs), every (element count) Cs Ss ->
  lawful (tuple_cls sh Cs) (tuple_sem count sh Cs Ss) /\
  (every (@steady W) Cs Ss -> steady (tuple_cls sh Cs) (tuple_sem count sh Cs Ss)).
Proof.
  intros W count sh Cs Ss H. split; [exact (proj1 (tuple_element count sh Cs Ss H))|exact (tuple_steady count sh Cs Ss)].
Qed.
Print Assumptions C31_tuple.

(** C12: the option around a tuple keeps its level in the first element that has most levels, and leaves
    the others alone. *)
Theorem C12_class_tuple : forall W (sh : shape) (Cs : list (cls W)) k, first_most k Cs ->
  lmax (tuple_cls sh Cs) = lmax (nth k Cs unit_cls) /\
  (forall r, lget (tuple_cls sh Cs) r = level_in sh k Cs r) /\
  (forall l r, lset (tuple_cls sh Cs) l r = with_level sh k l Cs r).
Proof. exact (@tuple_carrier). Qed.
Print Assumptions C12_class_tuple.
Example C12_class_tuple_ex : first_most 0 Cs3 /\ first_most 1 [fussy 0 false; fussy 3 false; fussy 3 false; fussy 2 false] /\
  lset (tuple_cls sh0 [fussy 2 false; fussy 3 false; fussy 3 false]) 1 (9, (9, (9, tt))) = (9, (1, (9, tt))).
Proof.
  split; [|split; [|reflexivity]]; (split; [cbn; lia|split]).
  1, 3: intros [|[|[|[|j]]]]; try (vm_compute; discriminate); destruct j; vm_compute; discriminate.
  - intros j J. lia.
  - intros [|j] J; [reflexivity|lia].
Qed.

(** C31: zip. *)
Theorem C31_zip : forall W (count : W -> Z) sh Cs (Ss : sems Cs) ps t d cs w,
  every (element count) Cs Ss -> invs Cs Ss cs ->
  let T := tuple_sem count sh Cs Ss in
  let values := sequence count sh Cs Ss (ovals count sh Cs Ss cs) in
  post (stops T) (a_zip sh Cs ps t d (cs, w))
    (fun q => inv _ T (fst q) /\ invs Cs Ss (fst (snd q)) /\ engaged Cs (fst (snd q)) = engaged Cs cs /\
       (count (snd (snd q)) + oowns Cs Ss cs = count w + oown _ T (fst q) + oowns Cs Ss (fst (snd q)))%Z /\
       oval _ T (fst q) = values /\
       match values with
       | Some vs => exists vs', lefts count sh Cs Ss ps vs vs' /\
                    sequence count sh Cs Ss (ovals count sh Cs Ss (fst (snd q))) = Some vs'
       | None => fst (snd q) = cs /\ snd (snd q) = w
       end)
    (fun q => invs Cs Ss (fst (snd q)) /\ engaged Cs (fst (snd q)) = engaged Cs cs /\
       (count (snd (snd q)) + oowns Cs Ss cs = count w + oowns Cs Ss (fst (snd q)))%Z).
Proof. exact @zip_ok. Qed.
Print Assumptions C31_zip.
Example C31_zip_ex :
  oval _ (tuple_sem zero sh0 Cs3 Ss3) (match a_zip sh0 Cs3 [ByCopy; ByMove] raw3 cell3 (all3, []) with Ret q => fst q | _ => cell3 end)
    = Some (5, (6, (7, tt))) /\
  a_zip sh0 Cs3 [ByCopy; ByMove] raw3 cell3 (two3, []) = Ret (mkcell raw3 0 false, (two3, [])).
Proof. vm_compute. split; reflexivity. Qed.
(** A constructor throws: nothing is left, the operands are as before. *)
Example C31_zip_throw_ex :
  match a_zip sh0 Cs3 [] raw3 cell3 (all3, [false; false; true]) with
  | Exn (_, (cs, w)) => cs = all3 /\ w = []
  | _ => False
  end.
Proof. vm_compute. split; reflexivity. Qed.

(** C31: the values of zip: all or nothing. *)
Theorem C31_all_or_nothing : forall W (count : W -> Z) sh Cs (Ss : sems Cs) os,
  (sequence count sh Cs Ss os = None <-> some_none count sh Cs Ss os) /\
  (forall vs, sequence count sh Cs Ss os = Some vs <-> os = distribute count sh Cs Ss (Some vs)).
Proof.
  intros W count sh Cs Ss os. split; [exact (sequence_none count sh Cs Ss os)|exact (sequence_some count sh Cs Ss os)].
Qed.
Print Assumptions C31_all_or_nothing.
Example C31_all_or_nothing_ex : ovals zero sh0 Cs3 Ss3 two3 = (Some 5, (None, (Some 7, tt))) /\
  some_none zero sh0 Cs3 Ss3 (ovals zero sh0 Cs3 Ss3 two3) /\ ~ some_none zero sh0 Cs3 Ss3 (ovals zero sh0 Cs3 Ss3 all3).
Proof. split; [reflexivity|]. split; cbn; [tauto|]. intuition discriminate. Qed.

(** C31: zip_with calls its function once on all contained objects, or not at all. *)
Theorem C31_zip_with_calls : forall W (count : W -> Z) Cs (Ss : sems Cs) D t d cs w,
  every (element count) Cs Ss -> invs Cs Ss cs ->
  (all_alive Cs cs = true -> calls_once (fun f => a_zip_with Cs D f t d (cs, w)) t (raws_of Cs cs, w)) /\
  (all_alive Cs cs = false -> never_calls (fun f => a_zip_with Cs D f t d (cs, w))).
Proof. exact @zip_with_calls. Qed.
Print Assumptions C31_zip_with_calls.

Theorem C31_zip_with : forall W (count : W -> Z) sh (D : cls W) (T : sem D), lawful D T -> (forall w, cnt T w = count w) ->
  forall Cs (Ss : sems Cs) f R t d cs w, every (element count) Cs Ss -> invs Cs Ss cs ->
  makes_from count sh Cs Ss D T f R ->
  let values := sequence count sh Cs Ss (ovals count sh Cs Ss cs) in
  post (stops (tuple_sem count sh Cs Ss) \/ stops T) (a_zip_with Cs D f t d (cs, w))
    (fun q => inv D T (fst q) /\ invs Cs Ss (fst (snd q)) /\ engaged Cs (fst (snd q)) = engaged Cs cs /\
       (count (snd (snd q)) + oowns Cs Ss cs = count w + oown D T (fst q) + oowns Cs Ss (fst (snd q)))%Z /\
       match values with
       | Some vs => exists v vs', oval D T (fst q) = Some v /\ R vs v vs' /\
                    sequence count sh Cs Ss (ovals count sh Cs Ss (fst (snd q))) = Some vs'
       | None => oval D T (fst q) = None /\ fst (snd q) = cs /\ snd (snd q) = w
       end)
    (fun q => invs Cs Ss (fst (snd q)) /\ engaged Cs (fst (snd q)) = engaged Cs cs /\
       (count (snd (snd q)) + oowns Cs Ss cs = count w + oowns Cs Ss (fst (snd q)))%Z).
Proof. exact @zip_with_ok. Qed.
Print Assumptions C31_zip_with.

(** The sum of three numbers; the first is set to zero. *)
Definition sum3 (d : raw (fussy 4 false)) (sw : raws Cs3 * schedule) : out (raw (fussy 4 false) * (raws Cs3 * schedule)) :=
  match sw with
  | ((a, (b, (c, e))), w) => Ret (((a - 3) + b + (c - 2) + 4 : N), (((3 : N), (b, (c, e))), w))
  end.
Lemma sum3_makes : makes_from zero sh0 Cs3 Ss3 (fussy 4 false) (fussy_sem 4 false) sum3
  (fun vs v vs' => v = fst vs + fst (snd vs) + fst (snd (snd vs)) /\ vs' = (0, snd vs)).
Proof.
  intros d (a & b & c & []) w (H1 & H2 & H3 & _). cbn in *. repeat split; auto; lia.
Qed.
Example C31_zip_with_ex :
  a_zip_with Cs3 (fussy 4 false) sum3 (0 : N) (mkcell (C := fussy 4 false) (0 : N) 0 false) (all3, []) =
  Ret (mkcell (C := fussy 4 false) (22 : N) 0 true,
        ((mkcell (C := fussy 3 false) (3 : N) 0 true, snd all3), [])).
Proof. vm_compute. reflexivity. Qed.

(** C31: zip_with and a function that returns void. *)
Theorem C31_zip_do_calls : forall W (count : W -> Z) Cs (Ss : sems Cs) cs w,
  every (element count) Cs Ss -> invs Cs Ss cs ->
  (all_alive Cs cs = true -> calls_once (fun f => a_zip_do Cs (fun sw => f tt sw) (cs, w)) tt (raws_of Cs cs, w)) /\
  (all_alive Cs cs = false -> never_calls (fun f => a_zip_do Cs f (cs, w))).
Proof. exact @zip_do_calls. Qed.
Print Assumptions C31_zip_do_calls.

Theorem C31_zip_do : forall W (count : W -> Z) sh Cs (Ss : sems Cs) f R cs w,
  every (element count) Cs Ss -> invs Cs Ss cs -> touches count sh Cs Ss f R ->
  post (stops (tuple_sem count sh Cs Ss)) (a_zip_do Cs f (cs, w))
    (fun q => invs Cs Ss (fst q) /\ engaged Cs (fst q) = engaged Cs cs /\
       (count (snd q) + oowns Cs Ss cs = count w + oowns Cs Ss (fst q))%Z /\
       match sequence count sh Cs Ss (ovals count sh Cs Ss cs) with
       | Some vs => exists vs', R vs vs' /\ sequence count sh Cs Ss (ovals count sh Cs Ss (fst q)) = Some vs'
       | None => q = (cs, w)
       end)
    (fun q => invs Cs Ss (fst q) /\ engaged Cs (fst q) = engaged Cs cs /\
       (count (snd q) + oowns Cs Ss cs = count w + oowns Cs Ss (fst q))%Z).
Proof. exact @zip_do_ok. Qed.
Print Assumptions C31_zip_do.
Example C31_zip_do_ex : touches zero sh0 Cs3 Ss3 (fun sw => Ret (((3 : N), snd (fst sw)), snd sw)) (fun vs vs' => vs' = (0, snd vs)).
Proof. intros (a & b & c & []) w (H1 & H2 & H3 & _). cbn in *. repeat split; auto; lia. Qed.

(** C31: unzip. *)
Theorem C31_unzip : forall W (count : W -> Z) sh elide Cs (Ss : sems Cs) p t r c w,
  every (element count) Cs Ss -> every (@quiet W) Cs Ss ->
  let T := tuple_sem count sh Cs Ss in
  let O := tuple_sem count sh (opts Cs) (osems Cs Ss) in
  inv _ T c ->
  post (stops T) (a_unzip elide sh Cs p t r (c, w))
    (fun q => ok O (fst q) /\ val O (fst q) = distribute count sh Cs Ss (oval _ T c) /\
       inv _ T (fst (snd q)) /\
       opt_rel (lefts count sh Cs Ss (repeat p (length Cs))) (oval _ T c) (oval _ T (fst (snd q))) /\
       (count (snd (snd q)) + oown _ T c = count w + own O (fst q) + oown _ T (fst (snd q)))%Z)
    (fun q => inv _ T (fst (snd q)) /\ c_alive (fst (snd q)) = c_alive c /\
       (count (snd (snd q)) + oown _ T c = count w + oown _ T (fst (snd q)))%Z).
Proof. exact @unzip_ok. Qed.
Print Assumptions C31_unzip.

(** C31: unzip after zip, zip after unzip. *)
Theorem C31_unzip_zip : forall W (count : W -> Z) sh Cs (Ss : sems Cs) ps t d cs w elide p t' r',
  every (element count) Cs Ss -> every (@quiet W) Cs Ss -> invs Cs Ss cs ->
  let T := tuple_sem count sh Cs Ss in
  let O := tuple_sem count sh (opts Cs) (osems Cs Ss) in
  post (stops T) (a_zip sh Cs ps t d (cs, w))
    (fun q => post (stops T) (a_unzip elide sh Cs p t' r' (fst q, snd (snd q)))
       (fun u => ok O (fst u) /\
          (some_none count sh Cs Ss (ovals count sh Cs Ss cs) -> all_none count sh Cs Ss (val O (fst u))) /\
          (~ some_none count sh Cs Ss (ovals count sh Cs Ss cs) -> val O (fst u) = ovals count sh Cs Ss cs))
       (fun _ => True))
    (fun _ => True).
Proof. exact @unzip_zip_ok. Qed.
Print Assumptions C31_unzip_zip.

Theorem C31_zip_unzip : forall W (count : W -> Z) sh Cs (Ss : sems Cs) elide p t r c w ps t' d',
  Cs <> [] -> every (element count) Cs Ss -> every (@quiet W) Cs Ss ->
  let T := tuple_sem count sh Cs Ss in
  inv _ T c ->
  post (stops T) (a_unzip elide sh Cs p t r (c, w))
    (fun q => post (stops T) (a_zip sh Cs ps t' d' (as_cells sh Cs (fst q), snd (snd q)))
       (fun u => inv _ T (fst u) /\ oval _ T (fst u) = oval _ T c)
       (fun _ => True))
    (fun _ => True).
Proof. exact @zip_unzip_ok. Qed.
Print Assumptions C31_zip_unzip.
Definition full3 : cell (tuple_cls sh0 Cs3) := mkcell (C := tuple_cls sh0 Cs3) (8, (6, (9, tt))) 0 true.
Definition oraw3 : raw (tuple_cls sh0 (opts Cs3)) := two3.
Example C31_unzip_ex :
  inv _ (tuple_sem zero sh0 Cs3 Ss3) full3 /\
  match a_unzip false sh0 Cs3 ByMove oraw3 oraw3 (full3, []) with
  | Ret (r, (c, _)) => val (tuple_sem zero sh0 (opts Cs3) (osems Cs3 Ss3)) r = (Some 5, (Some 6, (Some 7, tt))) /\
                       oval _ (tuple_sem zero sh0 Cs3 Ss3) c = Some (0, (0, (0, tt)))
  | _ => False
  end.
Proof.
  split; [|vm_compute; split; reflexivity]. split; [|split]; cbn.
  - repeat split; lia.
  - intros; discriminate.
  - intros; discriminate.
Qed.
(** std::tuple<> : unzip forgets whether the option was engaged. *)
Example C31_no_elements : zero (tt : unit) = 0%Z /\
  sequence (W := unit) zero sh0 [] tt (distribute zero sh0 [] tt None) = Some tt.
Proof. split; reflexivity. Qed.

(** C21: an option of a tuple may be left engaged with no object in it when an element throws, even
    though no element disturbs its own storage when it throws. *)
Theorem C21_tuple_refuted : exists (c c' : cell head_tail) w w',
  (quiet (fussy 3 false) (fussy_sem 3 false) /\ quiet (fussy 0 false) (fussy_sem 0 false)) /\
  lawful head_tail head_tail_sem /\ inv head_tail head_tail_sem c /\
  o_emplace head_tail (o_reset head_tail) (ctor head_tail (5, (6, tt))) c w = Exn (c', w') /\
  c_alive c' = false /\ o_has head_tail c' = Ok true /\ o_dtor head_tail c' w' = Undef.
Proof. exact tuple_torn. Qed.
Print Assumptions C21_tuple_refuted.
