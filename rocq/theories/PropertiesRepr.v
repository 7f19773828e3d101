(** Properties of the object representation of options.  Statements only: each theorem is closed by
    [exact], with its assumptions printed, and each is followed by an example that meets its hypotheses. *)
From Coq Require Import ZArith NArith List Bool Lia.
From Verif Require Import Outcome Words Ints Types OptBytes TypesSpec CustomTraits TraitFacts OptBytesFacts FindingsFacts ReprLemmas StringSpec StringFacts.
Import ListNotations.
Open Scope N_scope.

(** Example types: option<option<bool>>; struct { bool; T*; } (bool at 0, pointer at 8); int. *)
Definition ex_struct : ty := TTuple [(0%nat, TBool); (8%nat, TPtr64)] 16 8.
Definition ex_int : ty := TOpaque 4 4.

(** C01: emptying works over any bytes, and is observed as empty. *)
Theorem C01_empty_reads_empty : forall t td b,
  wf (TOption t) -> sized (sizeof (TOption t)) b ->
  (exists b', opt_default t b = Ok b' /\ opt_has_value t b' = Ok false /\
              decode (TOption t) b' = VNone /\ valid (TOption t) b') /\
  (valid (TOption t) b ->
   exists b', opt_reset td t b = Ok b' /\ opt_has_value t b' = Ok false /\
              decode (TOption t) b' = VNone /\ valid (TOption t) b').
Proof. exact l_C01. Qed.
Print Assumptions C01_empty_reads_empty.
Example C01_ex : wf (TOption (TOption (TOption ex_struct))) /\
  sized (sizeof (TOption (TOption (TOption ex_struct)))) (repeat 173 16).
Proof.
  split; [|apply bytes_ok_sized; vm_compute; reflexivity].
  cbn; unfold wf_layout; repeat split; try lia; try (exists 2%nat; reflexivity); right; vm_compute; congruence.
Qed.

(** C02: a stored value reads back, whatever the storage held before. *)
Theorem C02_stored_reads_back : forall t td sc v b,
  wf (TOption t) -> valid t v -> sized (sizeof (TOption t)) b ->
  let stored (r : res bytes) := exists b', r = Ok b' /\ opt_has_value t b' = Ok true /\
     opt_get t b' = Ok v /\ decode (TOption t) b' = VSome (decode t v) /\ valid (TOption t) b' in
  stored (opt_construct t v b) /\
  (valid (TOption t) b ->
     stored (opt_emplace td t v b) /\ stored (opt_assign_value sc t v b) /\
     (opt_has_value t b = Ok false -> stored (opt_try_emplace t v b)) /\
     (opt_has_value t b = Ok true -> opt_try_emplace t v b = Ok b)).
Proof. exact l_C02. Qed.
Print Assumptions C02_stored_reads_back.
Example C02_ex : valid ex_struct ([1;9;9;9;9;9;9;9] ++ le_encode 8 0x7FFF12345678).
Proof.
  cbn [ex_struct valid]. split; [apply bytes_ok_sized; vm_compute; reflexivity|].
  split; [split; [apply bytes_ok_sized; vm_compute; reflexivity|vm_compute; auto]|].
  split; [|exact I]. split; [apply bytes_ok_sized; vm_compute; reflexivity|left; vm_compute; reflexivity].
Qed.

(** C03: each logical state of a nested option can be built and is observed as itself ... *)
Theorem C03_states_observed : forall n t k v junk,
  wf (nest n t) -> (k <= n)%nat -> valid t v -> sized (sizeof (nest n t)) junk ->
  exists b, build n t k v junk = Ok b /\ valid (nest n t) b /\
    decode (nest n t) b = somes k (if (k =? n)%nat then decode t v else VNone).
Proof. exact l_C03_build. Qed.
Print Assumptions C03_states_observed.

(** ... no two of them share a representation ... *)
Theorem C03_states_distinct : forall n t j k v w junk junk' bj bk,
  wf (nest n t) -> (j < k <= n)%nat -> valid t v -> valid t w -> not_option (decode t w) ->
  sized (sizeof (nest n t)) junk -> sized (sizeof (nest n t)) junk' ->
  build n t j v junk = Ok bj -> build n t k w junk' = Ok bk -> bj <> bk.
Proof. exact l_C03_distinct. Qed.
Print Assumptions C03_states_distinct.

(** ... and emptying or refilling layer k leaves the k layers above it engaged. *)
Theorem C03_reset_layer : forall k n t td b x,
  wf (nest (k + S n) t) -> valid (nest (k + S n) t) b -> decode (nest (k + S n) t) b = somes k x ->
  exists b', update_at k (nest (k + S n) t) (opt_reset td (nest n t)) b = Ok b' /\
    valid (nest (k + S n) t) b' /\ decode (nest (k + S n) t) b' = somes k VNone.
Proof. exact l_C03_reset. Qed.
Print Assumptions C03_reset_layer.
Theorem C03_emplace_layer : forall k n t td b x v,
  wf (nest (k + S n) t) -> valid (nest (k + S n) t) b -> decode (nest (k + S n) t) b = somes k x ->
  valid (nest n t) v ->
  exists b', update_at k (nest (k + S n) t) (opt_emplace td (nest n t) v) b = Ok b' /\
    valid (nest (k + S n) t) b' /\ decode (nest (k + S n) t) b' = somes (S k) (decode (nest n t) v).
Proof. exact l_C03_emplace. Qed.
Print Assumptions C03_emplace_layer.
Example C03_ex : wf (nest 3 ex_int) /\ valid ex_int [1;2;3;4] /\ sized (sizeof (nest 3 ex_int)) (repeat 7 8) /\
  not_option (decode ex_int [1;2;3;4]) /\
  build 3 ex_int 1 [1;2;3;4] (repeat 7 8) = Ok [7;7;7;7;2;7;7;7] /\
  build 3 ex_int 3 [1;2;3;4] (repeat 7 8) = Ok [1;2;3;4;1;7;7;7].
Proof.
  split; [|split; [|split; [|split; [|split]]]]; try (vm_compute; reflexivity); try (apply bytes_ok_sized; vm_compute; reflexivity).
  - cbn; unfold wf_layout; repeat split; try lia; try (exists 1%nat; reflexivity); try (left; reflexivity); right; vm_compute; congruence.
  - split; [discriminate|intros y; discriminate].
Qed.

(** C04: option<T> has the size of T exactly when T has an unused state; k wraps of any T cost one
    alignment unit per 255 wraps beyond the levels of T. *)
Theorem C04_zero_overhead : forall t, wf (TOption t) ->
  (sizeof (TOption t) = sizeof t <-> 0 < max_level t) /\
  (max_level t = 0 -> sizeof (TOption t) = (sizeof t + alignof t)%nat).
Proof. exact l_C04. Qed.
Print Assumptions C04_zero_overhead.
Theorem C04_nested_size : forall t k, wf (nest k t) ->
  sizeof (nest k t) = (sizeof t + alignof t * N.to_nat ((N.of_nat k - max_level t + 254) / 255))%nat.
Proof. exact nest_size. Qed.
Print Assumptions C04_nested_size.
Example C04_ex : sizeof (nest 1 ex_int) = 8%nat /\ sizeof (nest 255 ex_int) = 8%nat /\ sizeof (nest 256 ex_int) = 12%nat /\
  sizeof (nest 254 TBool) = 1%nat /\ sizeof (nest 255 TBool) = 2%nat.
Proof. vm_compute. repeat split. Qed.

(** C05: level round trip.  [levels t] is max_level t except for narrow PADDING members and wide
    signed SENTINEL_START enums; those two deviations are C14_narrow_refuted and C11_start_refuted. *)
Theorem C05_level_round_trip : forall t l b,
  wf t -> l < levels t -> sized (sizeof t) b ->
  exists b', set_level t l b = Ok b' /\ sized (sizeof t) b' /\ get_level t b' = Ok l.
Proof. exact l_C05. Qed.
Print Assumptions C05_level_round_trip.
Example C05_ex : levels ex_struct = 512 /\ levels (TOption (TOption ex_struct)) = 510 /\
  levels (TArray 3 (TPair 0 ex_int 4 (TFloat32 true) 8 4)) = 256.
Proof. vm_compute. repeat split. Qed.

(** C06: valid values have a level at or above max_level. *)
Theorem C06_values_not_levels : forall t b, wf t -> 0 < max_level t -> valid t b ->
  exists l, get_level t b = Ok l /\ max_level t <= l.
Proof. exact l_C06. Qed.
Print Assumptions C06_values_not_levels.
Example C06_ex : valid (TOption ex_int) [0;0;0;0;1;0;0;0] /\ 0 < max_level (TOption ex_int) /\ wf (TOption ex_int).
Proof.
  split; [|split; [reflexivity|]].
  - cbn [valid ex_int]. split; [apply bytes_ok_sized; reflexivity|]. right.
    split; [reflexivity|apply bytes_ok_sized; reflexivity].
  - cbn. unfold wf_layout. repeat split; try lia. exists 1%nat. reflexivity.
Qed.

(** C07: storing a level, or emptying an option, changes no byte outside the carrier. *)
Theorem C07_set_level_frame : forall t l b b' i,
  wf t -> length b = sizeof t -> set_level t l b = Ok b' ->
  length b' = length b /\ (outside i (touched t) -> nth_error b' i = nth_error b i).
Proof. exact l_C07_level. Qed.
Print Assumptions C07_set_level_frame.
Theorem C07_empty_frame : forall t td b b' i,
  wf (TOption t) -> length b = sizeof (TOption t) ->
  opt_default t b = Ok b' \/ opt_reset td t b = Ok b' ->
  length b' = length b /\ (outside i (touched (TOption t)) -> nth_error b' i = nth_error b i).
Proof. exact l_C07_option. Qed.
Print Assumptions C07_empty_frame.
Example C07_ex : touched (TOption ex_struct) = [(8, 8)]%nat /\ outside 3 (touched (TOption ex_struct)) /\
  touched (TOption ex_int) = [(4, 1)]%nat.
Proof.
  split; [reflexivity|]. split; [|reflexivity]. intros o n [[= <- <-]|[]]. lia.
Qed.

(** C08: pointers. *)
Theorem C08_canonical_storable : forall a, a < 2 ^ 64 -> (canonical_n 48 a \/ canonical_n 57 a) ->
  valid TPtr64 (le_encode 8 a) /\ ~ reserved TPtr64 (le_encode 8 a).
Proof. exact l_C08_64. Qed.
Print Assumptions C08_canonical_storable.
Theorem C08_reserved_noncanonical : forall a, a < 2 ^ 64 -> reserved TPtr64 (le_encode 8 a) -> ~ canonical_n 57 a.
Proof. exact l_C08_block. Qed.
Print Assumptions C08_reserved_noncanonical.
Theorem C08_pointer32 : forall a, a < 2 ^ 32 ->
  (reserved TPtr32 (le_encode 4 a) <-> 0xFFFFFFC0 <= a <= 0xFFFFFFDF) /\
  (~ (0xFFFFFFC0 <= a <= 0xFFFFFFDF) -> valid TPtr32 (le_encode 4 a)).
Proof. exact l_C08_32. Qed.
Print Assumptions C08_pointer32.
Example C08_ex : canonical_n 48 0 /\ canonical_n 48 0x00007FFFFFFFFFFF /\ canonical_n 48 0xFFFF800000000000 /\
  canonical_n 57 0x00FFFFFFFFFFFFFF /\ reserved TPtr64 (le_encode 8 0xF8E1B1825D5D6C67) /\
  ~ (0xFFFFFFC0 <= 0xFFFFFFFA <= 0xFFFFFFDF).
Proof.
  unfold canonical_n. repeat split; try (left; vm_compute; reflexivity); try (right; vm_compute; split; congruence).
  - exists 0. split; vm_compute; reflexivity.
  - lia.
Qed.

(** C09: floating point. *)
Theorem C09_double : forall (q : bool) x, x < 2 ^ 64 ->
  (reserved (TFloat64 q) (le_encode 8 x) -> f64_negative x /\ f64_is_nan x /\ (f64_is_quiet x <-> q = true)) /\
  (~ reserved (TFloat64 q) (le_encode 8 x) -> valid (TFloat64 q) (le_encode 8 x)) /\
  (In x f64_hw_nans -> ~ reserved (TFloat64 q) (le_encode 8 x)).
Proof. exact l_C09_64. Qed.
Print Assumptions C09_double.
Theorem C09_float : forall (q : bool) x, x < 2 ^ 32 ->
  (reserved (TFloat32 q) (le_encode 4 x) -> f32_negative x /\ f32_is_nan x /\ (f32_is_quiet x <-> q = true)) /\
  (~ reserved (TFloat32 q) (le_encode 4 x) -> valid (TFloat32 q) (le_encode 4 x)) /\
  (In x f32_hw_nans -> ~ reserved (TFloat32 q) (le_encode 4 x)).
Proof. exact l_C09_32. Qed.
Print Assumptions C09_float.
Example C09_ex : reserved (TFloat64 false) (le_encode 8 0xFFF6C79F55B0898F) /\
  reserved (TFloat32 true) (le_encode 4 0xFFC3F0B4) /\ ~ f64_is_nan 0x7FF0000000000000 /\ f64_is_nan 0x7FF0000000000001.
Proof.
  split; [exists 0; split; vm_compute; reflexivity|]. split; [exists 255; split; vm_compute; reflexivity|].
  split; [intros [_ H]; apply H; reflexivity|split; [reflexivity|vm_compute; congruence]].
Qed.

(** C10: reflected enumerations. *)
Theorem C10_flag_unions_storable : forall w named x,
  wf (TEnumRefl w named) -> flag_union named x ->
  valid (TEnumRefl w named) (le_encode w x) /\ ~ reserved (TEnumRefl w named) (le_encode w x).
Proof. exact l_C10_union. Qed.
Print Assumptions C10_flag_unions_storable.
Theorem C10_reserved_block : forall w named x,
  wf (TEnumRefl w named) -> 0 < max_level (TEnumRefl w named) -> x < wbase w ->
  (reserved (TEnumRefl w named) (le_encode w x) <-> enum_start w named <= x < probed w) /\
  max_level (TEnumRefl w named) = probed w - enum_start w named.
Proof. exact C10_block_probed. Qed.
Print Assumptions C10_reserved_block.
Theorem C10_start_is_least_power_of_two : forall w named, enum_start w named <> 0 ->
  exists k, enum_start w named = 2 ^ k /\
    (forall e, In e named -> e < probed w -> e < 2 ^ k) /\
    (forall j, (forall e, In e named -> e < probed w -> e < 2 ^ j) ->
       (exists e, In e named /\ e < probed w) -> k <= j).
Proof. exact C10_start_probed. Qed.
Print Assumptions C10_start_is_least_power_of_two.
Example C10_ex : wf (TEnumRefl 1 [1; 2; 8]) /\ flag_union [1; 2; 8] 11 /\ enum_start 1 [1; 2; 8] = 16 /\
  max_level (TEnumRefl 1 [1; 2; 8]) = 240 /\ max_level (TEnumRefl 4 [0; 5]) = 1016.
Proof.
  split; [|split; [|vm_compute; repeat split]].
  - split; [left; reflexivity|]. repeat constructor.
  - change 11 with (N.lor 1 (N.lor 2 (N.lor 8 0))). repeat apply fu_or; cbn; auto. apply fu_zero.
Qed.

(** C11: declared sentinel enumerators; narrow or unsigned underlying types have no overflow. *)
Theorem C11_sentinel_partial : forall it s x,
  wf_ity it -> in_ity it s -> in_ity it x -> no_overflow it ->
  (exists l, get_level (TEnumSent it s) (int_encode it x) = Ok l) /\
  (reserved (TEnumSent it s) (int_encode it x) <-> x = s).
Proof. exact l_C11_sent. Qed.
Print Assumptions C11_sentinel_partial.
Theorem C11_start_partial : forall it s x,
  wf_ity it -> in_ity it s -> in_ity it x -> no_overflow it -> 0 < max_level (TEnumStart it s) ->
  (exists l, get_level (TEnumStart it s) (int_encode it x) = Ok l) /\
  (reserved (TEnumStart it s) (int_encode it x) <-> (s <= x)%Z) /\
  Z.of_N (max_level (TEnumStart it s)) = (imax it - s + 1)%Z.
Proof. exact l_C11_start. Qed.
Print Assumptions C11_start_partial.
Theorem C11_start_end_partial : forall it s e x,
  wf_ity it -> in_ity it s -> in_ity it e -> (s <= e)%Z -> in_ity it x -> no_overflow it ->
  0 < max_level (TEnumStartEnd it s e) ->
  (exists l, get_level (TEnumStartEnd it s e) (int_encode it x) = Ok l) /\
  (reserved (TEnumStartEnd it s e) (int_encode it x) <-> (s <= x <= e)%Z) /\
  Z.of_N (max_level (TEnumStartEnd it s e)) = (e - s + 1)%Z.
Proof. exact l_C11_start_end. Qed.
Print Assumptions C11_start_end_partial.
Example C11_ex : no_overflow u8 /\ no_overflow {| iw := 2; isg := true |} /\ wf_ity u8 /\ in_ity u8 250 /\
  max_level (TEnumStart u8 250) = 6 /\ max_level (TEnumStartEnd u8 250 252) = 3.
Proof.
  unfold no_overflow, wf_ity. cbn [isg iw u8]. split; [auto|]. split; [right; lia|]. split; [auto|].
  split; [vm_compute; split; congruence|]. split; reflexivity.
Qed.
(** For every underlying type: exactly for which values the level can be computed, and then the
    property holds. *)
Theorem C11_sentinel_exact : forall it s x, wf_ity it -> in_ity it s -> in_ity it x ->
  (computable it x s -> (exists l, get_level (TEnumSent it s) (int_encode it x) = Ok l) /\
                        (reserved (TEnumSent it s) (int_encode it x) <-> x = s)) /\
  (~ computable it x s -> get_level (TEnumSent it s) (int_encode it x) = UB).
Proof. exact l_C11_sent_exact. Qed.
Print Assumptions C11_sentinel_exact.
Theorem C11_start_exact : forall it s x, wf_ity it -> in_ity it s -> in_ity it x -> 0 < max_level (TEnumStart it s) ->
  Z.of_N (max_level (TEnumStart it s)) = (imax it - s + 1)%Z /\
  (computable it x s -> (exists l, get_level (TEnumStart it s) (int_encode it x) = Ok l) /\
                        (reserved (TEnumStart it s) (int_encode it x) <-> (s <= x)%Z)) /\
  (~ computable it x s -> get_level (TEnumStart it s) (int_encode it x) = UB).
Proof. exact l_C11_start_exact. Qed.
Print Assumptions C11_start_exact.
Theorem C11_start_end_exact : forall it s e x, wf_ity it -> in_ity it s -> in_ity it e -> (s <= e)%Z -> range_fits it s e ->
  in_ity it x -> 0 < max_level (TEnumStartEnd it s e) ->
  Z.of_N (max_level (TEnumStartEnd it s e)) = (e - s + 1)%Z /\
  (computable it x s -> (exists l, get_level (TEnumStartEnd it s e) (int_encode it x) = Ok l) /\
                        (reserved (TEnumStartEnd it s e) (int_encode it x) <-> (s <= x <= e)%Z)) /\
  (~ computable it x s -> get_level (TEnumStartEnd it s e) (int_encode it x) = UB).
Proof. exact l_C11_start_end_exact. Qed.
Print Assumptions C11_start_end_exact.
Example C11_exact_ex : computable i32 5 (-1) /\ ~ computable i32 2147483647 (-1) /\ range_fits i32 (-1) 3.
Proof.
  unfold computable, range_fits, in_ity, imin, imax, ibase. cbn [isg iw i32]. split; [right; right; vm_compute; split; congruence|].
  split; [|intros _ _; vm_compute; congruence].
  intros [H|[H|H]]; [discriminate|lia|]. revert H. vm_compute. intros [_ H]. now apply H.
Qed.
(** With a wide signed underlying type the level computation itself can overflow. *)
Theorem C11_sentinel_refuted :
  exists it s x, wf (TEnumSent it s) /\ in_ity it x /\ x <> s /\
    opt_has_value (TEnumSent it s) (int_encode it x) = UB.
Proof. exact (ex_intro _ i32 (ex_intro _ (-1)%Z (ex_intro _ 2147483647%Z
  (conj (proj1 enum_sentinel_overflow) (conj (proj1 (proj2 enum_sentinel_overflow))
    (conj (fun E => eq_ind 2147483647%Z (fun z => match z with Zpos _ => True | _ => False end) I (-1)%Z E)
          (proj2 (proj2 enum_sentinel_overflow)))))))). Qed.
Print Assumptions C11_sentinel_refuted.
Theorem C11_start_refuted :
  wf (TEnumStart i32 (-1)) /\ 2147483648 < max_level (TEnumStart i32 (-1)) /\
  exists b', set_level (TEnumStart i32 (-1)) 2147483648 (repeat 0 4) = Ok b' /\
             get_level (TEnumStart i32 (-1)) b' = UB.
Proof. exact enum_start_overflow. Qed.
Print Assumptions C11_start_refuted.
Theorem C11_start_count_refuted :
  wf (TEnumStart u64 0) /\ max_level (TEnumStart u64 0) = 0 /\ max_level (TEnumStart i64 (imin i64)) = 0.
Proof. exact enum_start_wraps. Qed.
Print Assumptions C11_start_count_refuted.

(** C12: which member of an aggregate carries the level. *)
Theorem C12_tuple_carrier : forall fs n a, fs <> [] ->
  exists i o ft, nth_error fs i = Some (o, ft) /\
    (forall j o' ft', nth_error fs j = Some (o', ft') -> max_level ft' <= max_level ft) /\
    (forall j o' ft', nth_error fs j = Some (o', ft') -> (j < i)%nat -> max_level ft' < max_level ft) /\
    max_level (TTuple fs n a) = max_level ft /\
    (forall b, get_level (TTuple fs n a) b = get_level ft (slice o (sizeof ft) b)) /\
    (forall l b, set_level (TTuple fs n a) l b =
       rmap (fun s => splice o s b) (set_level ft l (slice o (sizeof ft) b))).
Proof. exact tuple_carrier. Qed.
Print Assumptions C12_tuple_carrier.
Theorem C12_pair_carrier : forall o1 t1 o2 t2 n a,
  max_level (TPair o1 t1 o2 t2 n a) = N.max (max_level t1) (max_level t2) /\
  (max_level t2 < max_level t1 -> forall b,
     get_level (TPair o1 t1 o2 t2 n a) b = get_level t1 (slice o1 (sizeof t1) b)) /\
  (max_level t1 <= max_level t2 -> forall b,
     get_level (TPair o1 t1 o2 t2 n a) b = get_level t2 (slice o2 (sizeof t2) b)).
Proof. exact l_C12_pair. Qed.
Print Assumptions C12_pair_carrier.
Example C12_ex : max_level (TTuple [(0, TBool); (4, TFloat32 false); (8, TFloat32 true)]%nat 12 4) = 256 /\
  touched (TTuple [(0, TBool); (4, TFloat32 false); (8, TFloat32 true)]%nat 12 4) = [(4, 4)]%nat.
Proof. split; reflexivity. Qed.

(** C13: library and language types. *)
Theorem C13_library_types : forall t b, library_type t -> wf t ->
  (max_level t = 255 \/ max_level t = 256) /\
  (valid t b -> ~ reserved t b) /\
  (forall l, l < max_level t -> sized (sizeof t) b ->
     exists b', set_level t l b = Ok b' /\ get_level t b' = Ok l /\ ~ valid t b').
Proof. exact l_C13. Qed.
Print Assumptions C13_library_types.
Example C13_ex : library_type (TString 8 LibStdCpp) /\ wf (TString 8 LibStdCpp) /\
  valid (TString 8 LibStdCpp) (le_encode 8 0x7FFE00001010 ++ le_encode 8 3 ++ [97; 98; 99] ++ repeat 0 13).
Proof.
  split; [exact I|]. split; [right; reflexivity|]. split; [apply bytes_ok_sized; vm_compute; reflexivity|].
  vm_compute. congruence.
Qed.

(** C14: the PADDING member. *)
Theorem C14_wide_padding : forall n a off w l b,
  wf (TPadding n a off w) -> (4 <= w)%nat -> l < max_level (TPadding n a off w) -> sized n b ->
  exists b', set_level (TPadding n a off w) l b = Ok b' /\ get_level (TPadding n a off w) b' = Ok l.
Proof. exact l_C14_wide. Qed.
Print Assumptions C14_wide_padding.
Theorem C14_narrow_padding_partial : forall n a off w l b,
  wf (TPadding n a off w) -> l < wbase w - 1 -> sized n b ->
  exists b', set_level (TPadding n a off w) l b = Ok b' /\ get_level (TPadding n a off w) b' = Ok l.
Proof. exact l_C14_narrow. Qed.
Print Assumptions C14_narrow_padding_partial.
(** For every width and every level the member advertises: what is read back, that it is the level
    written exactly for the first [wbase w - 1] levels, and which levels no longer read as reserved. *)
Theorem C14_exact : forall n a off w l b,
  wf (TPadding n a off w) -> l < max_level (TPadding n a off w) -> sized n b ->
  exists b' l', set_level (TPadding n a off w) l b = Ok b' /\ get_level (TPadding n a off w) b' = Ok l' /\
    (l' = l <-> l < wbase w - 1) /\
    ((l + 1) mod wbase w = 0 -> ~ reserved (TPadding n a off w) b') /\
    ((l + 1) mod wbase w <> 0 -> l' = l mod wbase w /\ reserved (TPadding n a off w) b').
Proof. exact l_C14_exact. Qed.
Print Assumptions C14_exact.
Theorem C14_zero_is_value : forall n a off w b,
  wf (TPadding n a off w) -> sized n b -> read_word off w b = 0 ->
  opt_has_value (TPadding n a off w) b = Ok true.
Proof. exact l_C14_value. Qed.
Print Assumptions C14_zero_is_value.
Theorem C14_narrow_refuted :
  wf padded8 /\ 255 < max_level padded8 /\
  exists b b' l, sized 8 b /\ set_level padded8 255 b = Ok b' /\ get_level padded8 b' = Ok l /\ l <> 255.
Proof. exact padded8_level_lost. Qed.
Print Assumptions C14_narrow_refuted.
Theorem C14_narrow_deep_refuted :
  sizeof (nest 256 padded8) = sizeof padded8 /\ opt_default (nest 255 padded8) (repeat 0 8) = Verify.
Proof. exact padded8_deep_verify. Qed.
Print Assumptions C14_narrow_deep_refuted.
Example C14_ex : wf (TPadding 8 4 4 4) /\ max_level (TPadding 8 4 4 4) = 4294967295 /\ sized 8 (repeat 9 8).
Proof.
  split; [|split; [reflexivity|apply bytes_ok_sized; reflexivity]].
  cbn. unfold wf_layout, wf_w. repeat split; try lia. exists 2%nat. reflexivity.
Qed.

(** C15: opt::sentinel. *)
Theorem C15_sentinel : forall it vals x b, wf (TSentinel it vals) -> in_ity it x ->
  (reserved (TSentinel it vals) (int_encode it x) <-> In x vals) /\
  (forall i v, nth_error vals i = Some v -> sized (iw it) b ->
     set_level (TSentinel it vals) (N.of_nat i) b = Ok (int_encode it v) /\
     get_level (TSentinel it vals) (int_encode it v) = Ok (N.of_nat i)) /\
  (vals <> [] -> hd_error vals = Some x -> length b = iw it ->
     opt_construct (TSentinel it vals) (int_encode it x) b = Verify) /\
  max_level (TSentinel it vals) = N.of_nat (length vals).
Proof. exact l_C15. Qed.
Print Assumptions C15_sentinel.
Example C15_ex : wf (TSentinel i32 [-1; 0; 77]%Z) /\ in_ity i32 77.
Proof.
  split; [|vm_compute; split; congruence]. split; [right; right; left; reflexivity|]. split; [|split; [|reflexivity]].
  - repeat constructor; vm_compute; congruence.
  - repeat constructor; cbn; intuition discriminate.
Qed.
(** Listing a value twice is accepted, but its second level reads back as the first. *)
Theorem C15_duplicates_refuted :
  exists b', 1 < max_level (TSentinel u8 [5; 5]%Z) /\
  set_level (TSentinel u8 [5; 5]%Z) 1 [0] = Ok b' /\ get_level (TSentinel u8 [5; 5]%Z) b' = Ok 0.
Proof. exact sentinel_duplicate. Qed.
Print Assumptions C15_duplicates_refuted.

(** C16: user-supplied traits.  [wf] of each resulting type gives it C01-C07 and C25. *)
Theorem C16_sentinel_option_traits : forall size align, wf_layout size align -> forall eqv assign sent,
  sized size sent -> (forall b, sized size b -> sized size (assign b sent)) ->
  (forall b, length (assign b sent) = length b) ->
  (forall b, sized size b -> eqv (assign b sent) sent = true) ->
  wf (sot_type size align eqv assign sent).
Proof. exact sot_wf. Qed.
Print Assumptions C16_sentinel_option_traits.
Theorem C16_sentinel_f_single : forall size align, wf_layout size align ->
  forall V (compare : bytes -> V -> bool) (setv : bytes -> V -> bytes) v,
  (forall b, sized size b -> sized size (setv b v)) -> (forall b, length (setv b v) = length b) ->
  (forall b, sized size b -> compare (setv b v) v = true) ->
  wf (sf_type V size align compare setv [v]).
Proof. exact sf_single_wf. Qed.
Print Assumptions C16_sentinel_f_single.
(** With two or more constants opt::sentinel_f does not compile; repaired, it obeys the contract. *)
Theorem C16_sentinel_f_refuted : forall V n compare setv v1 v2 b,
  get_level (sf_type V n 1 compare setv [v1; v2]) b = UB.
Proof. exact sentinel_f_two. Qed.
Print Assumptions C16_sentinel_f_refuted.
Theorem C16_sentinel_f_repaired : forall size align, wf_layout size align ->
  forall V (compare : bytes -> V -> bool) (setv : bytes -> V -> bytes) vals,
  N.of_nat (length vals) < umax_base ->
  (forall b v, In v vals -> sized size b -> sized size (setv b v)) ->
  (forall b v, length (setv b v) = length b) ->
  (forall b k v, sized size b -> nth_error vals k = Some v ->
     compare (setv b v) v = true /\
     forall j u, (j < k)%nat -> nth_error vals j = Some u -> compare (setv b v) u = false) ->
  wf (sf_type_fixed V size align compare setv vals).
Proof. exact sf_fixed_wf. Qed.
Print Assumptions C16_sentinel_f_repaired.
(** opt::member and opt::enforce inherit the contract of what they wrap. *)
Theorem C16_member_enforce : forall off t n a l b,
  (wf (TMember off t n a) -> l < levels t -> sized n b ->
     exists b', set_level (TMember off t n a) l b = Ok b' /\ sized n b' /\ get_level (TMember off t n a) b' = Ok l) /\
  (wf (TEnforce t) -> l < levels t -> sized (sizeof t) b ->
     exists b', set_level (TEnforce t) l b = Ok b' /\ sized (sizeof t) b' /\ get_level (TEnforce t) b' = Ok l).
Proof. exact (fun off t n a l b => conj (l_C05 (TMember off t n a) l b) (l_C05 (TEnforce t) l b)). Qed.
Print Assumptions C16_member_enforce.
(** A one-byte class whose operator== ignores case of a letter, with sentinel 'x' (120). *)
Example C16_ex :
  let low x := if ((65 <=? x) && (x <=? 90))%bool then x + 32 else x in
  let eqv a b := match a, b with [x], [y] => low x =? low y | _, _ => false end in
  let assign (old new : bytes) := firstn (length old) (new ++ old) in
  wf (sot_type 1 1 eqv assign [120]) /\
  opt_has_value (sot_type 1 1 eqv assign [120]) [88] = Ok false /\
  opt_has_value (sot_type 1 1 eqv assign [120]) [89] = Ok true.
Proof.
  intros low eqv assign. split; [|split; reflexivity]. apply sot_wf.
  - unfold wf_layout. repeat split; try lia. exists 1%nat. reflexivity.
  - apply bytes_ok_sized. reflexivity.
  - intros b [Hl Hb]. destruct b as [|x [|y b]]; try discriminate. apply bytes_ok_sized. reflexivity.
  - intros b. unfold assign. rewrite firstn_length, app_length. cbn. lia.
  - intros b [Hl Hb]. destruct b as [|x [|y b]]; try discriminate. reflexivity.
Qed.

(** C25: a storing operation that returns normally has stored exactly the given object. *)
Theorem C25_reserved_detected : forall t td sc v b b',
  wf (TOption t) -> sized (sizeof (TOption t)) b -> length v = sizeof t ->
  (opt_construct t v b = Ok b' \/ opt_emplace td t v b = Ok b' \/ opt_assign_value sc t v b = Ok b' \/
   (opt_has_value t b = Ok false /\ opt_try_emplace t v b = Ok b')) ->
  opt_has_value t b' = Ok true /\ opt_get t b' = Ok v.
Proof. exact l_C25. Qed.
Print Assumptions C25_reserved_detected.
Theorem C25_none_pattern_aborts : forall t v b,
  wf t -> max_level t <> 0 -> length b = sizeof (TOption t) -> length v = sizeof t ->
  get_level t v = Ok 0 -> opt_construct t v b = Verify.
Proof. exact construct_level0. Qed.
Print Assumptions C25_none_pattern_aborts.
Example C25_ex : opt_construct TPtr64 (le_encode 8 0xF8E1B1825D5D6C67) (repeat 0 8) = Verify /\
  opt_construct TPtr64 (le_encode 8 0) (repeat 5 8) = Ok (repeat 0 8).
Proof. split; vm_compute; reflexivity. Qed.
(** Writing through operator* is not checked. *)
Theorem C25_write_through_refuted :
  exists t b v b', wf (TOption t) /\ valid (TOption t) b /\ opt_has_value t b = Ok true /\ sized (sizeof t) v /\
    opt_put t v b = Ok b' /\ opt_has_value t b' = Ok false.
Proof. exact put_empties. Qed.
Print Assumptions C25_write_through_refuted.

(** C27: reading and writing through get(), operator* and operator->: checked, and only if the option is not empty. *)
Theorem C27_bytes : forall t v b, wf (TOption t) -> valid (TOption t) b -> valid t v ->
  match decode (TOption t) b with
  | VNone => opt_get t b = Verify /\ opt_put t v b = Verify
  | VSome x =>
      (exists u, opt_get t b = Ok u /\ valid t u /\ decode t u = x) /\
      exists b', opt_put t v b = Ok b' /\ opt_has_value t b' = Ok true /\ opt_get t b' = Ok v /\
        decode (TOption t) b' = VSome (decode t v) /\ valid (TOption t) b'
  | _ => False
  end.
Proof. exact access_bytes. Qed.
Print Assumptions C27_bytes.
Example C27_bytes_ex : opt_put TBool [1] [2] = Verify /\ opt_put TBool [1] [0] = Ok [1] /\ decode (TOption TBool) [2] = VNone.
Proof. repeat split; vm_compute; reflexivity. Qed.

(** ... and k dereferences in a row need all k layers: whatever is done to the object that they lead to, the check of the
    first empty layer comes before. *)
Theorem C27_layers : forall k n t j f b, valid (nest (k + n) t) b -> decode (nest (k + n) t) b = somes j VNone -> (j < k)%nat ->
  update_at k (nest (k + n) t) f b = Verify.
Proof. exact access_layers. Qed.
Print Assumptions C27_layers.
Example C27_layers_ex : valid (nest (2 + 0) TBool) [2] /\ decode (nest (2 + 0) TBool) [2] = somes 1 VNone /\
  update_at 2 (nest (2 + 0) TBool) (fun v => Ok v) [2] = Verify /\ update_at 1 (nest (2 + 0) TBool) (fun v => Ok v) [2] = Ok [2].
Proof.
  assert (sized 1 [2]) by (apply bytes_ok_sized; reflexivity).
  split; [|repeat split; vm_compute; reflexivity].
  cbn [nest Nat.add valid]. split; [assumption|]. right. split; [reflexivity|].
  split; [assumption|]. left. reflexivity.
Qed.

(** C45: reserved patterns against docs/builtin_traits.md. *)
Theorem C45_doc_bool : forall b, sized 1 b -> (reserved TBool b <-> 2 <= le_decode b <= 255).
Proof. exact bool_reserved. Qed.
Print Assumptions C45_doc_bool.
Theorem C45_doc_reference_wrapper : forall p b, wf_p p -> sized p b ->
  (reserved (TRefWrap p) b <-> le_decode b <= 255).
Proof. exact refwrap_reserved. Qed.
Print Assumptions C45_doc_reference_wrapper.
Theorem C45_doc_pointer64 : forall b, sized 8 b -> (reserved TPtr64 b <-> in_block 0xF8E1B1825D5D6C67 512 (le_decode b)).
Proof. exact ptr64_reserved. Qed.
Print Assumptions C45_doc_pointer64.
Theorem C45_doc_pointer32 : forall b, sized 4 b -> (reserved TPtr32 b <-> in_block 0xFFFFFFC0 32 (le_decode b)).
Proof. exact ptr32_reserved. Qed.
Print Assumptions C45_doc_pointer32.
Theorem C45_doc_double : forall (q : bool) b, sized 8 b ->
  (reserved (TFloat64 q) b <-> in_block (if q then 0xFFFBF26430BB3557 else 0xFFF6C79F55B0898F) 256 (le_decode b)).
Proof. exact f64_reserved. Qed.
Print Assumptions C45_doc_double.
Theorem C45_doc_float : forall (q : bool) b, sized 4 b ->
  (reserved (TFloat32 q) b <-> in_block (if q then 0xFFC3EFB5 else 0xFFBF69AF) 256 (le_decode b)).
Proof. exact f32_reserved. Qed.
Print Assumptions C45_doc_float.
Theorem C45_doc_polymorphic : forall p n a b, wf_p p -> sized n b -> (p <= n)%nat ->
  (reserved (TPoly p n a) b <-> wbase p - 89152 <= read_word 0 p b <= wbase p - 88898).
Proof. exact poly_reserved. Qed.
Print Assumptions C45_doc_polymorphic.
Theorem C45_doc_unique_ptr : forall p b, wf_p p -> sized p b ->
  (reserved (TUniquePtr p) b <-> wbase p - 46509 <= le_decode b <= wbase p - 46255).
Proof. exact uptr_reserved. Qed.
Print Assumptions C45_doc_unique_ptr.
Theorem C45_doc_string : forall p lib b, wf_p p -> sized (sizeof (TString p lib)) b ->
  (reserved (TString p lib) b <-> unused_string p lib b).
Proof. exact unused_iff. Qed.
Print Assumptions C45_doc_string.
Theorem C45_doc_member_pointer32 : forall b, sized 4 b ->
  (reserved TMemPtr32 b <-> 0xFFFFFC17 <= le_decode b <= 0xFFFFFD15).
Proof. exact mp32_reserved. Qed.
Print Assumptions C45_doc_member_pointer32.
Theorem C45_doc_member_pointer64 : forall n b, (8 <= n)%nat -> sized n b ->
  (reserved (TMemPtr64 n) b <-> 0xFFFFFFFFD3B2F9B2 <= read_word 0 8 b <= 0xFFFFFFFFD3B2FAB0).
Proof. exact mp64_reserved. Qed.
Print Assumptions C45_doc_member_pointer64.
(** The three rows where the table and the code differ: what the code does, and a witness. *)
Theorem C45_code_string_view : forall p df b, wf_p p -> sized (2 * p) b ->
  (reserved (TStringView p df) b <-> wbase p - 32186 <= read_word (sv_data_off p df) p b <= wbase p - 31932).
Proof. exact sv_reserved. Qed.
Print Assumptions C45_code_string_view.
Theorem C45_doc_string_view_refuted :
  exists b, sized 16 b /\ reserved (TStringView 8 true) b /\ read_word 0 8 b = wbase 8 - 32186.
Proof. exact doc_string_view_off_by_one. Qed.
Print Assumptions C45_doc_string_view_refuted.
Theorem C45_code_reference : forall p b, wf_p p -> sized p b ->
  (reserved (TOptRef p) b <-> 1 <= le_decode b <= 256).
Proof. exact optref_reserved. Qed.
Print Assumptions C45_code_reference.
Theorem C45_doc_reference_refuted :
  max_level (TOptRef 8) = 256 /\ exists b, sized 8 b /\ reserved (TOptRef 8) b /\ le_decode b = 256.
Proof. exact doc_reference_256. Qed.
Print Assumptions C45_doc_reference_refuted.
Theorem C45_code_vector : forall p b, wf_p p -> sized (3 * p) b ->
  (reserved (TVector p) b <-> wbase p - 76327 <= read_word 0 p b <= wbase p - 76073).
Proof. exact vector_reserved. Qed.
Print Assumptions C45_code_vector.
Theorem C45_doc_vector_refuted : exists b, sized 24 b /\ reserved (TVector 8) b /\ read_word 0 8 b <> 1.
Proof. exact doc_vector_data. Qed.
Print Assumptions C45_doc_vector_refuted.
Example C45_ex : sized 8 (le_encode 8 0xF8E1B1825D5D6E66) /\ reserved TPtr64 (le_encode 8 0xF8E1B1825D5D6E66) /\
  ~ reserved TPtr64 (le_encode 8 0xF8E1B1825D5D6E67).
Proof.
  split; [apply le_encode_sized|]. split; [exists 511; split; vm_compute; reflexivity|].
  intros (l & H1 & H2). vm_compute in H1. injection H1 as <-. vm_compute in H2. discriminate.
Qed.

(** C46: byte-wise copying and the copying operations preserve the state at every layer. *)
Theorem C46_memcpy : forall t src mem off, valid t src -> (off + sizeof t <= length mem)%nat ->
  let mem' := splice off src mem in
  let dst := slice off (sizeof t) mem' in
  decode t dst = decode t src /\ valid t dst /\ length mem' = length mem /\
  (forall i, (i < off \/ off + sizeof t <= i)%nat -> nth_error mem' i = nth_error mem i).
Proof. exact l_C46. Qed.
Print Assumptions C46_memcpy.
Theorem C46_copy_ops : forall t td a b, wf (TOption t) -> valid (TOption t) a -> valid (TOption t) b ->
  (exists r, opt_copy t a b = Ok r /\ valid (TOption t) r /\ decode (TOption t) r = decode (TOption t) a) /\
  (exists r, opt_assign td t a b = Ok r /\ valid (TOption t) r /\ decode (TOption t) r = decode (TOption t) a) /\
  (exists r a', opt_take td t a b = Ok (r, a') /\ decode (TOption t) r = decode (TOption t) a /\
                decode (TOption t) a' = VNone) /\
  (exists a' b', opt_swap td t a b = Ok (a', b') /\ decode (TOption t) a' = decode (TOption t) b /\
                 decode (TOption t) b' = decode (TOption t) a).
Proof. exact l_C46_ops. Qed.
Print Assumptions C46_copy_ops.
Example C46_ex : valid (TOption (TOption TBool)) [2] /\ valid (TOption (TOption TBool)) [1] /\
  decode (TOption (TOption TBool)) [2] = VSome VNone /\ decode (TOption (TOption TBool)) [3] = VNone /\
  decode (TOption (TOption TBool)) [1] = VSome (VSome (VBytes [1])).
Proof.
  split; [|split; [|vm_compute; repeat split]]; cbn [valid].
  - split; [apply bytes_ok_sized; reflexivity|]. right. split; [vm_compute; reflexivity|].
    split; [apply bytes_ok_sized; reflexivity|]. left. vm_compute. reflexivity.
  - split; [apply bytes_ok_sized; reflexivity|]. right. split; [vm_compute; reflexivity|].
    split; [apply bytes_ok_sized; reflexivity|]. right. split; [vm_compute; reflexivity|].
    split; [apply bytes_ok_sized; reflexivity|right; reflexivity].
Qed.
