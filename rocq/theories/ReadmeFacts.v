(** Facts about the overview in README.md. *)
From Coq Require Import ZArith NArith List Bool Lia ZifyBool ZifyNat ZifyN String.
From Verif Require Import Outcome Words Types OptBytes TypesSpec TypesFacts OptBytesFacts FindingsFacts Layers LayersSpec LayersFacts.
Import ListNotations.
Open Scope list_scope.

Lemma programs_ex : in_state 2 TBool (state 2 (VBytes [1%N])) [1%N] /\
  run true 2 TBool [Reset 1; HasValue 0; HasValue 1; Emplace 0 [0%N]; Value] [1%N] =
    Ok ([0%N], [Has true; Has false; Bytes [0%N]]) /\
  spec_run 2 TBool (state 2 (VBytes [1%N])) [Reset 1; HasValue 0; HasValue 1; Emplace 0 [0%N]; Value] =
    Some (state 2 (VBytes [0%N]), [inl true; inl false; inr (VBytes [0%N])]).
Proof.
  assert (sized 1 [1%N]) by (apply bytes_ok_sized; reflexivity).
  split; [|split; vm_compute; reflexivity]. split; [|split; [cbn; lia|vm_compute; reflexivity]].
  cbn [nest valid]. split; [assumption|]. right. split; [reflexivity|]. split; [assumption|]. right.
  split; [reflexivity|]. split; [assumption|]. right. reflexivity.
Qed.

Lemma readme_text :
  map (show "a") readme_bool = firstn 2 (skipn 4 readme_112) /\
  map (show "b") readme_float = skipn 11 readme_112.
Proof. split; reflexivity. Qed.

Lemma wf_bools : wf (nest 2 TBool).
Proof. cbn. repeat split; try lia; right; vm_compute; congruence. Qed.
Lemma wf_floats : wf (nest 5 (TFloat32 false)).
Proof. cbn. repeat split; try lia; right; vm_compute; congruence. Qed.

Lemma built n t v junk b : wf (nest n t) -> valid t v -> sized (sizeof (nest n t)) junk -> build n t n v junk = Ok b ->
  in_state n t (state n (decode t v)) b.
Proof.
  intros Hw Hv Hj Hb. destruct (build_ok n t n v junk Hw (le_n n) Hv Hj) as (b' & E & H1 & H2).
  assert (b' = b) as -> by congruence. rewrite Nat.eqb_refl in H2. split; [exact H1|]. cbn [engaged leaf].
  split; [lia|]. now rewrite Nat.ltb_irrefl.
Qed.
Lemma in_state_empty n t x b : (0 < n)%nat -> in_state n t (state 0 x) b -> decode (nest n t) b = VNone.
Proof. intros Hn (_ & _ & H). cbn [engaged] in H. destruct n; [lia|exact H]. Qed.

Lemma readme_bool_ok : forall junk, sized 1 junk -> forall b, build 2 TBool 2 [1%N] junk = Ok b ->
  forallb (compiles 2) readme_bool = true /\ readme_bool = inside_out 2 /\
  exists b', run true 2 TBool readme_bool b = Ok (b', []) /\ decode (nest 2 TBool) b' = VNone.
Proof.
  intros junk Hj b Hb. split; [reflexivity|]. split; [reflexivity|].
  assert (Hs : in_state 2 TBool (state 2 (decode TBool [1%N])) b).
  { apply (built 2 TBool [1%N] junk b wf_bools); [|exact Hj|exact Hb].
    split; [apply bytes_ok_sized; reflexivity|right; reflexivity]. }
  destruct (inside_out_ok true 2 TBool _ b ltac:(lia) wf_bools Hs ltac:(cbn; lia)) as (b' & H1 & H2).
  exists b'. split; [exact H1|]. apply (in_state_empty 2 TBool _ b' ltac:(lia) H2).
Qed.

Lemma readme_float_fails : forall junk, sized 4 junk -> forall b, opt_default (nest 4 (TFloat32 false)) junk = Ok b ->
  compiles 5 (Reset 5) = false /\ readme_float = Reset 5 :: inside_out 5 /\
  forallb (compiles 5) (inside_out 5) = true /\
  run true 5 (TFloat32 false) (inside_out 5) b = Verify.
Proof.
  intros junk Hj b Hb. split; [reflexivity|]. split; [reflexivity|]. split; [reflexivity|].
  destruct (opt_default_ok (nest 4 (TFloat32 false)) junk wf_floats Hj) as (b' & E & H1 & _ & H2).
  assert (b' = b) as -> by congruence.
  apply (empty_first true 5 (TFloat32 false) b (Reset 4) (inside_out 4) wf_floats).
  - split; [exact H1|]. split; [cbn; lia|exact H2].
  - lia.
  - reflexivity.
  - exact (inside_out_given (TFloat32 false) 5).
  - exact I.
Qed.

Lemma readme_float_filled : forall v junk b, valid (TFloat32 false) v -> sized 4 junk ->
  build 5 (TFloat32 false) 5 v junk = Ok b ->
  exists b', run true 5 (TFloat32 false) (inside_out 5) b = Ok (b', []) /\ decode (nest 5 (TFloat32 false)) b' = VNone.
Proof.
  intros v junk b Hv Hj Hb. pose proof (built 5 (TFloat32 false) v junk b wf_floats Hv Hj Hb) as Hs.
  destruct (inside_out_ok true 5 _ _ b ltac:(lia) wf_floats Hs ltac:(cbn; lia)) as (b' & H1 & H2).
  exists b'. split; [exact H1|]. apply (in_state_empty 5 (TFloat32 false) _ b' ltac:(lia) H2).
Qed.

Lemma readme_sizes : forall o0 o1 o2,
  let int := TOpaque 4 4 in let char := TOpaque 1 1 in
  let same t := sizeof (TOption t) = sizeof t in
  let S1 := TTuple [(0%nat, int); (4%nat, char); (5%nat, TBool)] 8 4 in
  same (TFloat32 false) /\ same (TFloat32 true) /\ same TPtr64 /\
  same (TTuple [(o0, int); (o1, int); (o2, TFloat32 false)] 12 4) /\
  same S1 /\ same (TTuple [(0%nat, S1); (8%nat, TTuple [(o0, int); (o1, int)] 8 4)] 16 4) /\
  sizeof (nest 2 TBool) = sizeof TBool /\ sizeof (nest 5 (TFloat32 false)) = sizeof (TFloat32 false).
Proof. intros. repeat split; vm_compute; reflexivity. Qed.
