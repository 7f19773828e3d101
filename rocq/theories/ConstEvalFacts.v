(** Constant evaluation agrees with the specification. *)
From Coq Require Import NArith List Bool Arith Lia.
From Verif Require Import Types TypesSpec TypesFacts TraitFacts History ConstEval ConstEvalSpec.
Import ListNotations.

Section Lists.
Context {A B : Type}.
Lemma map_put (f : A -> B) : forall l x v, map f (put l x v) = put (map f l) x (f v).
Proof. induction l; intros [|x] v; cbn; congruence. Qed.
Lemma put_put_same : forall (l : list A) x u v, put (put l x u) x v = put l x v.
Proof. induction l; intros [|x] u v; cbn; congruence. Qed.
Lemma put_self : forall (l : list A) x v, nth_error l x = Some v -> put l x v = l.
Proof. induction l; intros [|x] v H; cbn in *; try discriminate; [congruence|f_equal; auto]. Qed.
Lemma Forall_put (P : A -> Prop) : forall l x v, Forall P l -> P v -> Forall P (put l x v).
Proof. induction l; intros [|x] v H Hv; inversion H; subst; cbn; auto. Qed.
Lemma nth_map_false (f : A -> bool) : forall l x, nth x (map f l) false = match nth_error l x with Some a => f a | None => false end.
Proof. induction l; intros [|x]; cbn; auto. Qed.
Lemma nth_error_put_ne : forall (l : list A) x y v, x <> y -> nth_error (put l x v) y = nth_error l y.
Proof. induction l; intros [|x] [|y] v H; cbn; auto; congruence. Qed.
Lemma nth_error_put_eq : forall (l : list A) x v u, nth_error l x = Some u -> nth_error (put l x v) x = Some v.
Proof. induction l; intros [|x] v u H; cbn in *; auto; try discriminate; eauto. Qed.
End Lists.

Section Facts.
Context {V : Type}.
Implicit Types (T : literal V) (c d : opt V) (v : V) (l : state V).

Definition gives {A} (r : option A) (b : bool) (P : A -> Prop) : Prop :=
  match r with Some a => b = true /\ P a | None => b = false end.

Lemma gives_bind {A B} (r : option A) (f : A -> option B) (b b' : bool) P Q :
  gives r b P -> (forall a, P a -> gives (f a) b' Q) -> gives (obind r f) (b && b') Q.
Proof.
  destruct r as [a|]; cbn; intros H K.
  - destruct H as [-> H]. exact (K a H).
  - now rewrite H.
Qed.
Lemma gives_map {A B} (r : option A) (f : A -> B) b (P : A -> Prop) (Q : B -> Prop) :
  gives r b P -> (forall a, P a -> Q (f a)) -> gives (option_map f r) b Q.
Proof. destruct r; cbn; intuition. Qed.
Lemma gives_weaken {A} (r : option A) b b' (P Q : A -> Prop) :
  gives r b P -> b = b' -> (forall a, P a -> Q a) -> gives r b' Q.
Proof. intros H <- K. destruct r; cbn in *; intuition. Qed.

Lemma check_true vm : check vm (Some true) = true.
Proof. now destruct vm. Qed.
Lemma check_some vm (H : vm <> Ignored) b : check vm (Some b) = b.
Proof. destruct vm; auto. congruence. Qed.

(** * A relation between options and optional values, for whole programs *)
Section Generic.
Context (cxx20 : bool) (vm : vmode) (T : literal V) (abs : opt V -> option V) (hot : opt V -> bool) (inv : opt V -> Prop).

Definition absS (l : state V) : @astate V := map (option_map abs) l.
Definition hotS (l : state V) : list bool := map (fun s => match s with Some c => hot c | None => false end) l.
Definition invS (l : state V) : Prop := Forall (fun s => match s with Some c => inv c | None => True end) l.

Lemma slot_some l x c : slot l x = Some c -> nth_error l x = Some (Some c).
Proof. unfold slot. destruct (nth_error l x) as [[d|]|]; congruence. Qed.
Lemma look_abs l x : look (absS l) x = option_map abs (slot l x).
Proof. unfold look, absS, slot. rewrite nth_error_map. destruct (nth_error l x) as [[c|]|]; auto. Qed.
Lemma fresh_abs l x : fresh (absS l) x = free l x.
Proof. unfold fresh, absS, free. rewrite nth_error_map. destruct (nth_error l x) as [[c|]|]; auto. Qed.
Lemma warm_hot l x : warm (hotS l) x = match slot l x with Some c => hot c | None => false end.
Proof. unfold warm, hotS, slot. rewrite nth_map_false. destruct (nth_error l x) as [[c|]|]; auto. Qed.
Lemma inv_slot l x c : invS l -> slot l x = Some c -> inv c.
Proof.
  intros Hl H%slot_some. unfold invS in Hl. rewrite Forall_forall in Hl.
  exact (Hl _ (nth_error_In _ _ H)).
Qed.
Lemma absS_put l x c : absS (put l x (Some c)) = bind_ (absS l) x (abs c).
Proof. unfold absS, bind_. now rewrite map_put. Qed.
Lemma absS_del l x : absS (put l x None) = put (absS l) x None.
Proof. unfold absS. now rewrite map_put. Qed.
Lemma hotS_put l x c : hotS (put l x (Some c)) = put (hotS l) x (hot c).
Proof. unfold hotS. now rewrite map_put. Qed.
Lemma hotS_del l x : hotS (put l x None) = put (hotS l) x false.
Proof. unfold hotS. now rewrite map_put. Qed.
Lemma invS_put l x c : invS l -> inv c -> invS (put l x (Some c)).
Proof. intros. apply Forall_put; auto. Qed.
Lemma invS_del l x : invS l -> invS (put l x None).
Proof. intros. apply Forall_put; auto. Qed.
Lemma hot_same l x c b : slot l x = Some c -> hot c = b -> put (hotS l) x b = hotS l.
Proof.
  intros H%slot_some <-. apply put_self. unfold hotS. now rewrite nth_error_map, H.
Qed.
Lemma abs_same l x c : slot l x = Some c -> bind_ (absS l) x (abs c) = absS l.
Proof. intros H%slot_some. apply put_self. unfold absS. now rewrite nth_error_map, H. Qed.
Lemma free_slot l x : free l x = true -> slot l x = None.
Proof. unfold free, slot. destruct (nth_error l x) as [[c|]|]; congruence. Qed.
Lemma free_ne l x y c : free l x = true -> slot l y = Some c -> x <> y.
Proof. intros H K ->. apply free_slot in H. congruence. Qed.

(** What is allowed, and which storages are warm, in terms of: can an empty option be made ([e_ok]), is it
    then warm ([e_hot]), can a value be reset ([r_ok]), which values pass the verification ([v_ok]). *)
Context (e_ok e_hot r_ok : bool) (v_ok : V -> bool).
Definition mk (b : bool) : bool := cxx20 || l_tma T && b.
Definition lit_ok : bool := cxx20 || l_td T.
Definition triv_c : bool := l_tcc T && l_tca T && l_td T.
Definition triv_m : bool := l_tmc T && l_tma T && l_td T.

Definition fitsG (s : stmt V) (a : @astate V) (w : list bool) : bool :=
  let creates (b : bool) (x : nat) := implb b (mk (warm w x)) in
  match s with
  | New x None => lit_ok && e_ok
  | New x (Some v) => lit_ok && v_ok v
  | NewConv x None => lit_ok && e_ok
  | NewConv x (Some v) => lit_ok && (e_ok && (mk e_hot && v_ok v))
  | NewCopy x y => l_tcc T || e_ok && implb (full a y) (mk e_hot)
  | NewMove x y => l_tmc T || e_ok && implb (full a y) (mk e_hot)
  | NewTake x y => (l_tmc T || e_ok && implb (full a y) (mk e_hot)) && implb (full a y) r_ok
  | Reset x => implb (full a x) r_ok
  | NewMap x y f =>
      match look a y with Some (Some v) => v_ok (f v) | Some None => e_ok | None => true end
  | Set_ x v => creates (l_scalar T || negb (full a x)) x && v_ok v
  | SetConv x (Some v) => creates (negb (full a x)) x && v_ok v
  | SetConv x None => implb (full a x) r_ok
  | CopyAssign x y => creates (negb triv_c && full a y && negb (full a x)) x && implb (negb triv_c && negb (full a y) && full a x) r_ok
  | MoveAssign x y => creates (negb triv_m && full a y && negb (full a x)) x && implb (negb triv_m && negb (full a y) && full a x) r_ok
  | Emplace x v => implb (full a x) r_ok && (mk (warm w x) && v_ok v)
  | TryEmplace x v => implb (negb (full a x)) (mk (warm w x) && v_ok v)
  | Swap x y =>
      if full a x && full a y then cxx20 || l_swap T
      else creates (full a x) y && creates (full a y) x && implb (full a x || full a y) r_ok
  | _ => true
  end.
Definition noteG (s : stmt V) (a : @astate V) (w : list bool) : list bool :=
  let cop (t : bool) (x y : nat) := put w x (if t then warm w y else full a y || e_hot) in
  match s with
  | New x o => put w x (match o with Some _ => true | None => e_hot end)
  | NewConv x o => put w x (match o with Some _ => true | None => e_hot end)
  | NewCopy x y => cop (l_tcc T) x y
  | NewMove x y | NewTake x y => cop (l_tmc T) x y
  | NewMap x y _ => put w x (full a y || e_hot)
  | CopyAssign x y => if triv_c then put w x (warm w y) else w
  | MoveAssign x y => if triv_m then put w x (warm w y) else w
  | Destroy x => put w x false
  | _ => w
  end.

Context (Ttd : l_tcc T = true -> l_td T = true) (Tmtd : l_tmc T = true -> l_td T = true)
  (Tleft : l_tmc T = true -> forall v, l_left T v = v).
Definition isSome {A} (o : option A) : bool := match o with Some _ => true | None => false end.
Definition warm' (c : opt V) (b : bool) : Prop := cxx20 = false -> hot c = b.

Context (L : lit_ok = true) (Hvm : vm <> Ignored)
  (Hhas : forall c, inv c -> has T c = Some (isSome (abs c)))
  (Hact : forall c v, inv c -> abs c = Some v -> active c = Some v)
  (Hhot : forall c v, inv c -> abs c = Some v -> hot c = true)
  (Hok : forall c v, inv c -> abs c = Some v -> v_ok v = true)
  (Has : forall c, inv c -> l_td T = true -> as_is c = Some c)
  (Hempty : gives (empty cxx20 vm T) e_ok (fun c => inv c /\ abs c = None /\ warm' c e_hot))
  (Hin : forall v, gives (in_place vm T v) (v_ok v) (fun c => inv c /\ abs c = Some v))
  (Hcon : forall v c b, inv c -> warm' c b -> gives (construct cxx20 vm T v c) (mk b && v_ok v) (fun c' => inv c' /\ abs c' = Some v))
  (Hres : forall c, inv c -> gives (reset cxx20 vm T c) (implb (isSome (abs c)) r_ok) (fun c' => inv c' /\ abs c' = None /\ warm' c' (hot c)))
  (Hleft : forall c v, inv c -> abs c = Some v ->
     inv (mkopt (Value (l_left T v)) (o_flag c)) /\ abs (mkopt (Value (l_left T v)) (o_flag c)) = Some (l_left T v))
  (Hset : forall c u v, inv c -> abs c = Some u ->
     gives (verified vm T (mkopt (Value v) (o_flag c))) (v_ok v) (fun c' => c' = mkopt (Value v) (o_flag c) /\ inv c' /\ abs c' = Some v)).

Definition okay (s : stmt V) (l : state V) : Prop :=
  match step cxx20 vm T s l with
  | Some (l', e) =>
      fitsG s (absS l) (hotS l) = true /\ ideal (l_left T) s (absS l) = Some (absS l', e) /\
      (cxx20 = false -> hotS l' = noteG s (absS l) (hotS l)) /\ invS l'
  | None => fitsG s (absS l) (hotS l) = false \/ ideal (l_left T) s (absS l) = None
  end.

Lemma set_gives c u v : inv c -> abs c = Some u -> v_ok v = true ->
  assign_value v c = Some (mkopt (Value v) (o_flag c)) /\
  inv (mkopt (Value v) (o_flag c)) /\ abs (mkopt (Value v) (o_flag c)) = Some v.
Proof.
  intros Hc Hu Hv. pose proof (Hset c u v Hc Hu) as H. unfold assign_value.
  pose proof (Hact c u Hc Hu) as Ha. unfold active in Ha. destruct (o_mem c); try discriminate.
  split; auto. destruct (verified vm T _) as [c'|]; cbn in H; [|congruence].
  destruct H as (_ & -> & H). exact H.
Qed.

Lemma copy_gives d : inv d ->
  gives (copy_ctor cxx20 vm T d) (l_tcc T || e_ok && implb (isSome (abs d)) (mk e_hot))
    (fun c => inv c /\ abs c = abs d /\ warm' c (if l_tcc T then hot d else isSome (abs d) || e_hot)).
Proof.
  intros Hd. unfold copy_ctor. destruct (l_tcc T) eqn:E; cbn [orb].
  - rewrite (Has d Hd (Ttd eq_refl)). cbn. unfold warm'. auto.
  - rewrite (Hhas d Hd). eapply gives_bind; [exact Hempty|]. intros c (Hc & Ac & Wc). cbn.
    destruct (abs d) as [v|] eqn:Ad; cbn.
    + rewrite (Hact d v Hd Ad). cbn. eapply gives_weaken; [apply (Hcon v c e_hot Hc Wc)| |].
      * now rewrite (Hok d v Hd Ad), andb_true_r.
      * cbn. intros c' [Hi Ha]. repeat split; auto. intros _. eauto.
    + auto.
Qed.
Lemma move_gives d : inv d ->
  gives (move_ctor cxx20 vm T d) (l_tmc T || e_ok && implb (isSome (abs d)) (mk e_hot))
    (fun p => inv (fst p) /\ abs (fst p) = abs d /\ warm' (fst p) (if l_tmc T then hot d else isSome (abs d) || e_hot) /\
              inv (snd p) /\ abs (snd p) = option_map (l_left T) (abs d) /\ warm' (snd p) (hot d)).
Proof.
  intros Hd. unfold move_ctor. destruct (l_tmc T) eqn:E; cbn [orb].
  - rewrite (Has d Hd (Tmtd eq_refl)). cbn. unfold warm'. repeat split; auto.
    destruct (abs d); cbn; auto. now rewrite Tleft.
  - rewrite (Hhas d Hd). eapply gives_bind; [exact Hempty|]. intros c (Hc & Ac & Wc). cbn.
    destruct (abs d) as [v|] eqn:Ad; cbn.
    + rewrite (Hact d v Hd Ad). cbn. pose proof (Hcon v c e_hot Hc Wc) as K.
      rewrite (Hok d v Hd Ad), andb_true_r in K.
      destruct (construct cxx20 vm T v c) as [c'|]; cbn in *; auto.
      destruct K as (K & Ic & Acc). destruct (Hleft d v Hd Ad) as [Il Al].
      repeat split; auto; intros _; eauto. rewrite (Hhot d v Hd Ad). eauto.
    + unfold warm'. repeat split; auto.
Qed.
Lemma take_gives d : inv d ->
  gives (take cxx20 vm T d) ((l_tmc T || e_ok && implb (isSome (abs d)) (mk e_hot)) && implb (isSome (abs d)) r_ok)
    (fun p => inv (fst p) /\ abs (fst p) = abs d /\ warm' (fst p) (if l_tmc T then hot d else isSome (abs d) || e_hot) /\
              inv (snd p) /\ abs (snd p) = None /\ warm' (snd p) (hot d)).
Proof.
  intros Hd. unfold take. pose proof (move_gives d Hd) as M.
  destruct (move_ctor cxx20 vm T d) as [[c s]|]; cbn in *; [|now rewrite M].
  destruct M as (M & Ic & Ac & Wc & Is & As & Ws). rewrite M.
  pose proof (Hres s Is) as R. rewrite As in R.
  replace (isSome (option_map (l_left T) (abs d))) with (isSome (abs d)) in R by now destruct (abs d).
  destruct (reset cxx20 vm T s) as [s'|]; cbn in *; auto.
  destruct R as (R & Is' & As' & Ws'). repeat split; auto.
  intros H. rewrite (Ws' H). auto.
Qed.
Lemma create_gives v c b : inv c -> hot c = b -> 
  gives (construct cxx20 vm T v c) (mk b && v_ok v) (fun c' => inv c' /\ abs c' = Some v /\ warm' c' true).
Proof.
  intros Hc Hb. eapply gives_weaken; [apply (Hcon v c b Hc)|reflexivity|].
  - intros _. exact Hb.
  - cbn. intros c' [I A]. repeat split; auto. intros _. eauto.
Qed.

Lemma declare_okay l x r b (o : option V) (w : bool) :
  invS l -> gives r b (fun c => inv c /\ abs c = o /\ warm' c w) ->
  match declare l x r with
  | Some (l', e) => b = true /\ new (absS l) x o = Some (absS l', e) /\
      (cxx20 = false -> hotS l' = put (hotS l) x w) /\ invS l'
  | None => b = false \/ new (absS l) x o = None
  end.
Proof.
  intros Hl H. unfold declare, new. rewrite fresh_abs. destruct (free l x); auto.
  destruct r as [c|]; cbn in *; auto. destruct H as (H & Ic & Ac & Wc).
  rewrite absS_put, hotS_put. split; auto. rewrite Ac. repeat split; auto using invS_put.
  intros E. now rewrite (Wc E).
Qed.
Lemma declare2_okay l x y d r b (o o' : option V) (w : bool) :
  invS l -> slot l y = Some d ->
  gives r b (fun p => inv (fst p) /\ abs (fst p) = o /\ warm' (fst p) w /\ inv (snd p) /\ abs (snd p) = o' /\ warm' (snd p) (hot d)) ->
  match declare2 l x y r with
  | Some (l', e) => b = true /\ (if fresh (absS l) x then Some (bind_ (bind_ (absS l) y o') x o, []) else None) = Some (absS l', e) /\
      (cxx20 = false -> hotS l' = put (hotS l) x w) /\ invS l'
  | None => b = false \/ (if fresh (absS l) x then Some (bind_ (bind_ (absS l) y o') x o, []) else None) = (None : option (@astate V * list (seen V)))
  end.
Proof.
  intros Hl Hd H. unfold declare2. rewrite fresh_abs. destruct (free l x); auto.
  destruct r as [[c s]|]; cbn in *; auto. destruct H as (H & Ic & Ac & Wc & Is & As & Ws).
  rewrite !absS_put, !hotS_put. split; auto. rewrite Ac, As. repeat split; auto using invS_put.
  intros E. rewrite (Wc E). rewrite (hot_same l y d); auto. symmetry; auto.
Qed.
Lemma change_okay l x c (f : opt V -> option (opt V)) b (o : option V) :
  invS l -> slot l x = Some c -> gives (f c) b (fun c' => inv c' /\ abs c' = o /\ (cxx20 = false -> b = true -> hot c' = hot c)) ->
  match change l x f with
  | Some (l', e) => b = true /\ Some (bind_ (absS l) x o, []) = Some (absS l', e) /\
      (cxx20 = false -> hotS l' = hotS l) /\ invS l'
  | None => b = false
  end.
Proof.
  intros Hl Hc H. unfold change. rewrite Hc. cbn. destruct (f c) as [c'|]; cbn in *; auto.
  destruct H as (H & Ic & Ac & Wc). rewrite absS_put, hotS_put. split; auto. rewrite Ac.
  repeat split; auto using invS_put. intros E. apply hot_same with (c := c); auto. symmetry; auto.
Qed.
Lemma full_abs l x : full (absS l) x = match slot l x with Some c => isSome (abs c) | None => false end.
Proof. unfold full. rewrite look_abs. destruct (slot l x) as [c|]; cbn; auto. Qed.
Lemma mk_warm b : cxx20 = false -> mk b = true -> b = true.
Proof. unfold mk. intros E. rewrite E. cbn. intros M. apply andb_true_iff in M. tauto. Qed.

Lemma put_value_gives v c : inv c ->
  gives (obind (has T c) (fun h => if h then obind (assign_value v c) (verified vm T) else construct cxx20 vm T v c))
    (implb (negb (isSome (abs c))) (mk (hot c)) && v_ok v)
    (fun c' => inv c' /\ abs c' = Some v /\ (cxx20 = false -> hot c' = hot c)).
Proof.
  intros Hc. rewrite (Hhas c Hc). cbn [obind]. destruct (abs c) as [u|] eqn:A; cbn [isSome negb implb andb].
  - unfold assign_value. pose proof (Hact c u Hc A) as Ha. unfold active in Ha.
    destruct (o_mem c); try discriminate. cbn [obind].
    eapply gives_weaken; [apply (Hset c u v Hc A)|reflexivity|]. cbn.
    intros c' (_ & I & B). repeat split; auto. intros _. rewrite (Hhot c u Hc A). eauto.
  - pose proof (create_gives v c (hot c) Hc eq_refl) as K.
    destruct (construct cxx20 vm T v c) as [c'|]; cbn in *; auto.
    destruct K as (K & I & B & W). repeat split; auto. intros E. rewrite (W E). symmetry.
    apply andb_true_iff in K. apply mk_warm; tauto.
Qed.

Lemma from_option_gives (tr : bool) (d c : opt V) : inv d -> inv c ->
  gives (if tr then Some d else
         obind (has T d) (fun h => if h then
           obind (active d) (fun v => obind (has T c) (fun h' => if h' then assign_value v c else construct cxx20 vm T v c))
         else reset cxx20 vm T c))
    (implb (negb tr && isSome (abs d) && negb (isSome (abs c))) (mk (hot c)) &&
     implb (negb tr && negb (isSome (abs d)) && isSome (abs c)) r_ok)
    (fun c' => inv c' /\ abs c' = abs d /\ warm' c' (if tr then hot d else hot c)).
Proof.
  intros Hd Hc. destruct tr; cbn.
  - repeat split; auto.
  - rewrite (Hhas d Hd), (Hhas c Hc). cbn. destruct (abs d) as [v|] eqn:D; cbn.
    + rewrite (Hact d v Hd D). cbn. pose proof (Hok d v Hd D) as Kv.
      destruct (abs c) as [u|] eqn:A; cbn.
      * destruct (set_gives c u v Hc A Kv) as (-> & I & B). cbn. repeat split; auto.
        intros _. rewrite (Hhot c u Hc A). eauto.
      * pose proof (create_gives v c (hot c) Hc eq_refl) as K. rewrite Kv, andb_true_r in K.
        rewrite andb_true_r. destruct (construct cxx20 vm T v c) as [c'|]; cbn in *; auto.
        destruct K as (K & I & B & W). repeat split; auto. intros E. rewrite (W E). symmetry. now apply mk_warm.
    + pose proof (Hres c Hc) as R. destruct (reset cxx20 vm T c); cbn in *; auto.
Qed.

Lemma move_assign_gives (d c : opt V) : inv d -> inv c ->
  gives (move_assign cxx20 vm T d c)
    (implb (negb triv_m && isSome (abs d) && negb (isSome (abs c))) (mk (hot c)) &&
     implb (negb triv_m && negb (isSome (abs d)) && isSome (abs c)) r_ok)
    (fun p => (inv (fst p) /\ abs (fst p) = abs d /\ warm' (fst p) (if triv_m then hot d else hot c)) /\
              inv (snd p) /\ abs (snd p) = option_map (l_left T) (abs d) /\ warm' (snd p) (hot d)).
Proof.
  intros Hd Hc. pose proof (from_option_gives triv_m d c Hd Hc) as K.
  unfold move_assign. fold triv_m. destruct triv_m eqn:E.
  - assert (H : l_tmc T = true) by (unfold triv_m in E; destruct (l_tmc T); auto).
    rewrite (Has d Hd (Tmtd H)). cbn. unfold warm'. repeat split; auto. destruct (abs d); cbn; auto. now rewrite Tleft.
  - rewrite (Hhas d Hd) in *. cbn [obind] in *. destruct (abs d) as [v|] eqn:D; cbn [isSome] in *.
    + rewrite (Hact d v Hd D) in *. cbn [obind] in *.
      rewrite (Hhas c Hc) in *. cbn [obind] in *.
      destruct (Hleft d v Hd D) as [Il Al].
      destruct (if isSome (abs c) then assign_value v c else construct cxx20 vm T v c) as [c'|]; cbn in *; auto.
      destruct K as (K & I & B & W). rewrite K. repeat split; auto. intros _. rewrite (Hhot d v Hd D). eauto.
    + destruct (reset cxx20 vm T c) as [c'|]; cbn in *; auto. unfold warm' in *. intuition.
Qed.

Lemma swap_gives (c d : opt V) : inv c -> inv d ->
  gives (swap cxx20 vm T c d)
    (if isSome (abs c) && isSome (abs d) then cxx20 || l_swap T
     else implb (isSome (abs c)) (mk (hot d)) && implb (isSome (abs d)) (mk (hot c)) &&
          implb (isSome (abs c) || isSome (abs d)) r_ok)
    (fun p => inv (fst p) /\ abs (fst p) = abs d /\ warm' (fst p) (hot c) /\
              inv (snd p) /\ abs (snd p) = abs c /\ warm' (snd p) (hot d)).
Proof.
  intros Hc Hd. unfold swap. rewrite (Hhas c Hc), (Hhas d Hd). cbn [obind].
  destruct (abs c) as [v|] eqn:A; destruct (abs d) as [u|] eqn:B; cbn [isSome andb implb obind orb].
  - rewrite (Hact c v Hc A), (Hact d u Hd B). cbn [obind].
    destruct (set_gives c v u Hc A (Hok d u Hd B)) as (_ & I & E).
    destruct (set_gives d u v Hd B (Hok c v Hc A)) as (_ & I' & E').
    destruct (cxx20 || l_swap T); cbn; auto. repeat split; auto; intros _.
    + rewrite (Hhot c v Hc A). eauto.
    + rewrite (Hhot d u Hd B). eauto.
  - rewrite (Hact c v Hc A). cbn [obind].
    pose proof (create_gives v d (hot d) Hd eq_refl) as K. rewrite (Hok c v Hc A), andb_true_r in K.
    rewrite andb_true_r. destruct (construct cxx20 vm T v d) as [d'|]; cbn in *; [|now rewrite K].
    destruct K as (K & I & E & W). destruct (Hleft c v Hc A) as [Il Al]. rewrite K.
    pose proof (Hres _ Il) as R. rewrite Al in R. destruct (reset cxx20 vm T _) as [c'|]; cbn in *; auto.
    destruct R as (R & Ic & Ac & Wc). repeat split; auto.
    + intros F. rewrite (Wc F), (Hhot c v Hc A). eauto.
    + intros F. rewrite (W F). symmetry. now apply mk_warm.
  - rewrite (Hact d u Hd B). cbn [obind].
    pose proof (create_gives u c (hot c) Hc eq_refl) as K. rewrite (Hok d u Hd B), andb_true_r in K.
    destruct (construct cxx20 vm T u c) as [c'|]; cbn in *; [|now rewrite K].
    destruct K as (K & I & E & W). destruct (Hleft d u Hd B) as [Il Al]. rewrite K.
    pose proof (Hres _ Il) as R. rewrite Al in R. destruct (reset cxx20 vm T _) as [d'|]; cbn in *; auto.
    destruct R as (R & Ic & Ac & Wc). repeat split; auto.
    + intros F. rewrite (W F). symmetry. now apply mk_warm.
    + intros F. rewrite (Wc F), (Hhot d u Hd B). eauto.
  - cbn. unfold warm'. repeat split; auto.
Qed.

Lemma change2_okay l x y c d (f : opt V -> opt V -> option (opt V * opt V)) b (o o' : option V) (w : bool) :
  invS l -> slot l x = Some c -> slot l y = Some d -> Nat.eqb x y = false ->
  gives (f c d) b (fun p => inv (fst p) /\ abs (fst p) = o /\ warm' (fst p) w /\ inv (snd p) /\ abs (snd p) = o' /\ warm' (snd p) (hot d)) ->
  match change2 l x y f with
  | Some (l', e) => b = true /\ Some (bind_ (bind_ (absS l) y o') x o, []) = Some (absS l', e) /\
      (cxx20 = false -> hotS l' = put (hotS l) x w) /\ invS l'
  | None => b = false
  end.
Proof.
  intros Hl Hc Hd Hne H. unfold change2. rewrite Hne, Hc, Hd. cbn.
  destruct (f c d) as [[c' d']|]; cbn in *; auto. destruct H as (H & Ic & Ac & Wc & Id & Ad & Wd).
  rewrite !absS_put, !hotS_put. split; auto. rewrite Ac, Ad. repeat split; auto using invS_put.
  intros E. rewrite (Wc E). rewrite (hot_same l y d); auto. symmetry; auto.
Qed.

Lemma destroy_gives c : inv c -> gives (destroy cxx20 T c) true (fun _ => True).
Proof.
  intros Hc. unfold destroy. unfold lit_ok in L. destruct (l_td T); cbn; auto. destruct cxx20; cbn; try discriminate.
  rewrite (Hhas c Hc). cbn. destruct (abs c) as [v|] eqn:A; cbn; auto. rewrite (Hact c v Hc A). cbn. auto.
Qed.

Lemma okay_all s l : invS l -> okay s l.
Proof.
  intros Hl. unfold okay. destruct s; cbn [step ideal fitsG noteG].
  - (* New *)
    destruct i as [v|]; fold lit_ok; rewrite L; cbn [andb].
    + apply declare_okay; auto. eapply gives_weaken; [apply Hin|reflexivity|]. cbn.
      intros c [I A]. repeat split; auto. intros _. eauto.
    + apply declare_okay; auto.
  - (* NewConv *)
    fold lit_ok. rewrite L.
    assert (K : gives (conv_ctor cxx20 vm T o) (match o with Some v => e_ok && (mk e_hot && v_ok v) | None => e_ok end)
                  (fun c => inv c /\ abs c = o /\ warm' c (match o with Some _ => true | None => e_hot end))).
    { unfold conv_ctor. destruct o as [v|].
      - eapply gives_bind; [exact Hempty|]. intros c (Hc & _ & Wc). cbn.
        eapply gives_weaken; [apply (Hcon v c e_hot Hc Wc)|reflexivity|]. cbn.
        intros c' [I A]. repeat split; auto. intros _. eauto.
      - destruct (empty cxx20 vm T); cbn in *; auto. }
    pose proof (declare_okay l x _ _ _ _ Hl K) as D.
    destruct o as [v|]; cbn [andb]; exact D.
  - (* NewCopy *)
    rewrite full_abs, warm_hot. unfold on. rewrite look_abs.
    destruct (slot l y) as [d|] eqn:Hy; cbn [obind option_map]; auto.
    apply declare_okay; auto. apply copy_gives. eapply inv_slot; eauto.
  - (* NewMove *)
    rewrite full_abs, warm_hot. unfold on. rewrite look_abs.
    destruct (slot l y) as [d|] eqn:Hy; cbn [obind option_map]; auto.
    eapply declare2_okay; eauto. apply move_gives. eapply inv_slot; eauto.
  - (* NewTake *)
    rewrite full_abs, warm_hot. unfold on. rewrite look_abs.
    destruct (slot l y) as [d|] eqn:Hy; cbn [obind option_map]; auto.
    eapply declare2_okay; eauto. apply take_gives. eapply inv_slot; eauto.
  - (* NewMap *)
    rewrite full_abs. unfold on. rewrite look_abs.
    destruct (slot l y) as [d|] eqn:Hy; cbn [obind option_map]; auto.
    pose proof (inv_slot _ _ _ Hl Hy) as Hd. rewrite (Hhas d Hd). cbn [obind].
    destruct (abs d) as [v|] eqn:A; cbn [isSome orb option_map].
    + rewrite (Hact d v Hd A). cbn [obind]. apply declare_okay; auto.
      eapply gives_weaken; [apply Hin|reflexivity|]. cbn. intros c [I B]. repeat split; auto. intros _. eauto.
    + apply declare_okay; auto.
  - (* Destroy *)
    unfold on. rewrite look_abs. destruct (slot l x) as [c|] eqn:Hx; cbn [obind option_map]; auto.
    pose proof (destroy_gives c (inv_slot _ _ _ Hl Hx)) as D.
    destruct (destroy cxx20 T c); cbn in *; [|discriminate].
    rewrite absS_del, hotS_del. repeat split; auto using invS_del.
  - (* Reset *)
    rewrite full_abs. unfold on. rewrite look_abs. destruct (slot l x) as [c|] eqn:Hx; cbn [option_map].
    2: { unfold change. rewrite Hx. cbn. auto. }
    pose proof (inv_slot _ _ _ Hl Hx) as Hc.
    assert (K : gives (reset cxx20 vm T c) (implb (isSome (abs c)) r_ok)
       (fun c' => inv c' /\ abs c' = None /\ (cxx20 = false -> implb (isSome (abs c)) r_ok = true -> hot c' = hot c))).
    { pose proof (Hres c Hc) as R. destruct (reset cxx20 vm T c); cbn in *; auto. unfold warm' in R. intuition. }
    pose proof (change_okay l x c _ _ _ Hl Hx K) as D. destruct (change l x _) as [[l' e]|]; auto.
  - (* Set_ *)
    rewrite full_abs, warm_hot. unfold on. rewrite look_abs.
    destruct (slot l x) as [c|] eqn:Hx; cbn [option_map].
    2: { unfold change. rewrite Hx. cbn. auto. }
    pose proof (inv_slot _ _ _ Hl Hx) as Hc.
    assert (K : gives (set_value cxx20 vm T v c) (implb (l_scalar T || negb (isSome (abs c))) (mk (hot c)) && v_ok v)
       (fun c' => inv c' /\ abs c' = Some v /\ (cxx20 = false -> implb (l_scalar T || negb (isSome (abs c))) (mk (hot c)) && v_ok v = true -> hot c' = hot c))).
    { unfold set_value. destruct (l_scalar T); cbn [orb implb].
      - eapply gives_weaken; [apply (create_gives v c (hot c) Hc eq_refl)|reflexivity|]. cbn.
        intros c' (I & A & W). repeat split; auto. intros E M. rewrite (W E). symmetry.
        apply andb_true_iff in M. apply mk_warm; tauto.
      - eapply gives_weaken; [apply (put_value_gives v c Hc)|reflexivity|]. cbn. intuition. }
    pose proof (change_okay l x c _ _ _ Hl Hx K) as D. destruct (change l x _) as [[l' e]|]; auto.
  - (* SetConv *)
    rewrite full_abs, warm_hot. unfold on. rewrite look_abs.
    destruct (slot l x) as [c|] eqn:Hx; cbn [option_map].
    2: { unfold change. rewrite Hx. cbn. auto. }
    pose proof (inv_slot _ _ _ Hl Hx) as Hc.
    assert (K : gives (conv_assign cxx20 vm T o c) (match o with Some v => implb (negb (isSome (abs c))) (mk (hot c)) && v_ok v | None => implb (isSome (abs c)) r_ok end)
       (fun c' => inv c' /\ abs c' = o /\ (cxx20 = false -> match o with Some v => implb (negb (isSome (abs c))) (mk (hot c)) && v_ok v | None => implb (isSome (abs c)) r_ok end = true -> hot c' = hot c))).
    { unfold conv_assign. destruct o as [v|].
      - eapply gives_weaken; [apply (put_value_gives v c Hc)|reflexivity|]. cbn. intuition.
      - pose proof (Hres c Hc) as R. destruct (reset cxx20 vm T c); cbn in *; auto. unfold warm' in R. intuition. }
    pose proof (change_okay l x c _ _ _ Hl Hx K) as D. destruct (change l x _) as [[l' e]|]; auto.
  - (* CopyAssign *)
    rewrite !full_abs, !warm_hot. unfold on2, on. rewrite !look_abs.
    destruct (Nat.eqb x y) eqn:Hne; auto.
    destruct (slot l y) as [d|] eqn:Hy; cbn [obind option_map]; [|destruct (slot l x); auto].
    destruct (slot l x) as [c|] eqn:Hx; cbn [option_map].
    2: { unfold change. rewrite Hx. cbn. auto. }
    pose proof (inv_slot _ _ _ Hl Hx) as Hc. pose proof (inv_slot _ _ _ Hl Hy) as Hd.
    pose proof (from_option_gives triv_c d c Hd Hc) as K.
    unfold change. rewrite Hx. cbn [obind]. unfold copy_assign. fold triv_c.
    destruct triv_c eqn:E.
    + assert (H : l_tcc T = true) by (unfold triv_c in E; destruct (l_tcc T); auto).
      rewrite (Has d Hd (Ttd H)). cbn in *. rewrite absS_put, hotS_put. repeat split; auto using invS_put.
    + destruct (obind _ _) as [c'|]; cbn in *; auto. destruct K as (K & I & A & W).
      rewrite absS_put, hotS_put, A. repeat split; auto using invS_put.
      intros F. apply hot_same with (c := c); auto. symmetry; auto.
  - (* MoveAssign *)
    rewrite !full_abs, !warm_hot. unfold on2, on. rewrite !look_abs.
    destruct (Nat.eqb x y) eqn:Hne; [unfold change2; rewrite Hne; auto|].
    destruct (slot l x) as [c|] eqn:Hx; cbn [option_map].
    2: { unfold change2. rewrite Hne, Hx. cbn. auto. }
    destruct (slot l y) as [d|] eqn:Hy; cbn [option_map].
    2: { unfold change2. rewrite Hne, Hx, Hy. cbn. auto. }
    pose proof (inv_slot _ _ _ Hl Hx) as Hc. pose proof (inv_slot _ _ _ Hl Hy) as Hd.
    pose proof (move_assign_gives d c Hd Hc) as K.
    assert (K' : gives (move_assign cxx20 vm T d c)
      (implb (negb triv_m && isSome (abs d) && negb (isSome (abs c))) (mk (hot c)) &&
       implb (negb triv_m && negb (isSome (abs d)) && isSome (abs c)) r_ok)
      (fun p => inv (fst p) /\ abs (fst p) = abs d /\ warm' (fst p) (if triv_m then hot d else hot c) /\
                inv (snd p) /\ abs (snd p) = option_map (l_left T) (abs d) /\ warm' (snd p) (hot d)))
      by (eapply gives_weaken; [exact K|reflexivity|]; cbn; intuition).
    pose proof (change2_okay l x y c d (fun c d => move_assign cxx20 vm T d c) _ _ _ _ Hl Hx Hy Hne K') as D.
    destruct (change2 l x y _) as [[l' e]|]; auto. destruct D as (D1 & D2 & D3 & D4). repeat split; auto.
    intros F. rewrite (D3 F). destruct triv_m; auto. now apply hot_same with (c := c).
  - (* Emplace *)
    rewrite full_abs, warm_hot. unfold on. rewrite look_abs.
    destruct (slot l x) as [c|] eqn:Hx; cbn [option_map].
    2: { unfold change. rewrite Hx. cbn. auto. }
    pose proof (inv_slot _ _ _ Hl Hx) as Hc.
    assert (K : gives (emplace cxx20 vm T v c) (implb (isSome (abs c)) r_ok && (mk (hot c) && v_ok v))
       (fun c' => inv c' /\ abs c' = Some v /\
          (cxx20 = false -> implb (isSome (abs c)) r_ok && (mk (hot c) && v_ok v) = true -> hot c' = hot c))).
    { unfold emplace. eapply gives_bind; [exact (Hres c Hc)|]. intros d (Id & Ad & Wd). cbn.
      eapply gives_weaken; [apply (Hcon v d (hot c) Id Wd)|reflexivity|]. cbn.
      intros c' [I A]. repeat split; auto. intros E M. rewrite !andb_true_iff in M.
      rewrite (mk_warm _ E (proj1 (proj2 M))). eauto. }
    pose proof (change_okay l x c _ _ _ Hl Hx K) as D. destruct (change l x _) as [[l' e]|]; auto.
  - (* TryEmplace *)
    rewrite full_abs, warm_hot. unfold on. rewrite look_abs.
    destruct (slot l x) as [c|] eqn:Hx; cbn [option_map].
    2: { unfold change. rewrite Hx. cbn. auto. }
    pose proof (inv_slot _ _ _ Hl Hx) as Hc.
    assert (K : gives (try_emplace cxx20 vm T v c) (implb (negb (isSome (abs c))) (mk (hot c) && v_ok v))
       (fun c' => inv c' /\ abs c' = match abs c with Some u => Some u | None => Some v end /\
          (cxx20 = false -> implb (negb (isSome (abs c))) (mk (hot c) && v_ok v) = true -> hot c' = hot c))).
    { unfold try_emplace. rewrite (Hhas c Hc). cbn [obind]. destruct (abs c) as [u|] eqn:A; cbn [isSome negb implb].
      - cbn. repeat split; auto.
      - eapply gives_weaken; [apply (create_gives v c (hot c) Hc eq_refl)|reflexivity|]. cbn.
        intros c' (I & B & W). repeat split; auto. intros E M. rewrite (W E). symmetry.
        apply andb_true_iff in M. apply mk_warm; tauto. }
    pose proof (change_okay l x c _ _ _ Hl Hx K) as D. destruct (change l x _) as [[l' e]|]; auto.
  - (* Swap *)
    rewrite !full_abs, !warm_hot. unfold on2, on. rewrite !look_abs.
    destruct (Nat.eqb x y) eqn:Hne; [unfold change2; rewrite Hne; auto|].
    destruct (slot l x) as [c|] eqn:Hx; cbn [option_map].
    2: { unfold change2. rewrite Hne, Hx. cbn. auto. }
    destruct (slot l y) as [d|] eqn:Hy; cbn [option_map].
    2: { unfold change2. rewrite Hne, Hx, Hy. cbn. auto. }
    pose proof (inv_slot _ _ _ Hl Hx) as Hc. pose proof (inv_slot _ _ _ Hl Hy) as Hd.
    pose proof (change2_okay l x y c d _ _ _ _ _ Hl Hx Hy Hne (swap_gives c d Hc Hd)) as D.
    destruct (change2 l x y _) as [[l' e]|]; auto. destruct D as (D1 & D2 & D3 & D4). repeat split; auto.
    intros F. rewrite (D3 F). now apply hot_same with (c := c).
  - (* Has *)
    unfold on. rewrite look_abs. destruct (slot l x) as [c|] eqn:Hx; cbn [obind option_map]; auto.
    rewrite (Hhas c (inv_slot _ _ _ Hl Hx)). cbn. repeat split; auto.
  - (* Get *)
    unfold on. rewrite look_abs. destruct (slot l x) as [c|] eqn:Hx; cbn [obind option_map]; auto.
    pose proof (inv_slot _ _ _ Hl Hx) as Hc. unfold get. rewrite (Hhas c Hc), (check_some vm Hvm).
    destruct (abs c) as [v|] eqn:A; cbn; auto. rewrite (Hact c v Hc A). cbn. repeat split; auto.
Qed.

(** [rel]: what the notes mean. *)
Lemma run_means fits note (rel : list bool -> state V -> Prop) :
  (forall s l w, invS l -> rel w l ->
     ideal (l_left T) s (absS l) = None \/ fits s (absS l) w = fitsG s (absS l) (hotS l)) ->
  (forall s l w l', invS l -> rel w l -> fitsG s (absS l) (hotS l) = true ->
     (cxx20 = false -> hotS l' = noteG s (absS l) (hotS l)) -> rel (note s (absS l) w) l') ->
  forall p l w, invS l -> rel w l ->
    option_map snd (run cxx20 vm T p l) = means (l_left T) fits note p (absS l) w.
Proof.
  intros F N. induction p as [|s p IH]; intros l w Hl Hw; cbn [run means]; auto.
  pose proof (okay_all s l Hl) as O. unfold okay in O.
  destruct (F s l w Hl Hw) as [E|E].
  - rewrite E in *. destruct (step cxx20 vm T s l) as [[l' e]|]; cbn.
    + destruct O as (_ & O & _). discriminate.
    + now destruct (fits s (absS l) w).
  - rewrite E. destruct (step cxx20 vm T s l) as [[l' e]|]; cbn [obind fst snd].
    + destruct O as (Hf & -> & Hh & Hl'). rewrite Hf, <- (IH l' (note s (absS l) w) Hl').
      * destruct (run cxx20 vm T p l') as [[l'' e']|]; cbn; auto.
      * now apply (N s l w l').
    + destruct O as [-> | ->]; auto. now destruct (fitsG s _ _).
Qed.
End Generic.

(** * A flag *)
Definition absF (c : opt V) : option V := if o_flag c then active c else None.
Definition hotF (c : opt V) : bool := match o_mem c with Value _ => true | _ => false end.
Definition invF (T : literal V) (c : opt V) : Prop :=
  (o_flag c = true -> exists v, o_mem c = Value v) /\ (l_td T = true -> o_mem c <> Gone).

Lemma absS_blank abs n : absS abs (repeat None n) = repeat None n.
Proof. unfold absS. induction n; cbn; congruence. Qed.
Lemma hotS_blank hot n : hotS hot (repeat None n) = repeat false n.
Proof. unfold hotS. induction n; cbn; congruence. Qed.
Lemma invS_blank inv n : invS inv (repeat None n).
Proof. unfold invS. induction n; cbn; auto. Qed.

Section Flag.
Context (cxx20 : bool) (vm : vmode) (T : literal V) (S : sane T) (E : l_traits T = None) (L : cxx20 || l_td T = true)
  (Hvm : vm <> Ignored).

Lemma flag_run fits note :
  (forall s a w, cxx20 = true -> fits s a w = fitsG cxx20 T true false true (fun _ => true) s a w) ->
  (cxx20 = false -> forall s a w, fits s a w = fitsG cxx20 T true false true (fun _ => true) s a w /\
                                  (fitsG cxx20 T true false true (fun _ => true) s a w = true -> note s a w = noteG T false s a w)) ->
  forall p n, option_map snd (run cxx20 vm T p (repeat None n)) =
              means (l_left T) fits note p (repeat None n) (repeat false n).
Proof.
  intros F1 F2 p n. rewrite <- (absS_blank absF n).
  apply (run_means cxx20 vm T absF hotF (invF T) true false true (fun _ => true) (s_tcc S) (s_tmc S) (s_left S))
    with (rel := fun w l => cxx20 = false -> w = hotS hotF l);
    auto using invS_blank; [..|intros _; now rewrite hotS_blank].
  - intros c [H _]. unfold has. rewrite E. unfold absF, active. destruct (o_flag c); auto.
    destruct (H eq_refl) as [v ->]. auto.
  - intros c v _. unfold absF. destruct (o_flag c); congruence.
  - intros c v _. unfold absF, active, hotF. destruct (o_flag c); [|congruence]. destruct (o_mem c); congruence.
  - intros c [_ H] K. unfold as_is. destruct (o_mem c); auto. now destruct (H K).
  - unfold empty. rewrite E. cbn. repeat split; cbn; try congruence; auto.
  - intros v. unfold in_place, verified, has. rewrite E. cbn [o_flag]. rewrite check_true. cbn. repeat split; cbn; eauto; congruence.
  - intros v c b [H H'] W. unfold construct, construct_at, mk.
    destruct cxx20 eqn:D; cbn [orb andb].
    + unfold verified, has. rewrite E. cbn [o_flag]. rewrite ?Fl, check_true. cbn. repeat split; cbn; eauto; congruence.
    + specialize (W eq_refl). unfold hotF in W. destruct (l_tma T); cbn; auto.
      destruct (o_mem c); subst b; cbn; auto.
      unfold verified, has. rewrite E. cbn [o_flag]. rewrite ?Fl, check_true. cbn. repeat split; cbn; eauto; congruence.
  - intros c [H H']. rewrite implb_true_r. unfold reset. rewrite E. destruct (l_td T) eqn:D.
    + cbn. repeat split; cbn; auto; congruence.
    + destruct (o_flag c) eqn:Fl.
      * destruct (H eq_refl) as [v Hv]. unfold active. rewrite Hv. cbn. repeat split; cbn; try congruence.
        intros F. rewrite F in L. discriminate.
      * cbn. unfold warm'. repeat split; cbn; try congruence; auto. unfold absF. now rewrite Fl.
  - intros c v _ A. unfold absF in A. destruct (o_flag c) eqn:Fl; [|discriminate]. cbn.
    repeat split; cbn; eauto; congruence.
  - intros c u v _ A. unfold absF in A. destruct (o_flag c) eqn:Fl; [|discriminate].
    unfold verified, has. rewrite E. cbn [o_flag]. rewrite ?Fl, check_true. cbn. repeat split; cbn; eauto; congruence.
  - intros s l w _ Hw. right. destruct (Bool.bool_dec cxx20 true) as [D|D].
    + rewrite F1 by exact D. unfold fitsG, mk. rewrite D. destruct s; auto.
    + apply not_true_is_false in D. rewrite (Hw D). apply F2; auto.
  - intros s l w l' _ Hw Hf Hh D. rewrite (Hw D), (Hh D). apply F2; auto.
Qed.
End Flag.

Theorem flag_20 vm T p n : vm <> Ignored -> sane T -> l_traits T = None ->
  option_map snd (run true vm T p (repeat None n)) = means20 (l_left T) p n.
Proof.
  intros Hvm S E. unfold means20. apply flag_run; auto; try congruence.
  intros s a w _. destruct s; cbn; auto; repeat match goal with |- context [match ?o with _ => _ end] => destruct o end; 
    rewrite ?implb_true_r, ?orb_true_r, ?andb_true_r, ?orb_true_r, ?implb_true_r; auto.
Qed.
Theorem flag_17 vm T p n : vm <> Ignored -> sane T -> l_traits T = None -> l_td T = true ->
  option_map snd (run false vm T p (repeat None n)) =
  means17 (l_left T) (l_tcc T) (l_tca T) (l_tmc T) (l_tma T) (l_scalar T) (l_swap T) p n.
Proof.
  intros Hvm S E D. unfold means17. apply flag_run; auto; try congruence.
  intros _ s a w. unfold fitsG, noteG, lit_ok, triv_c, triv_m, mk. rewrite D. cbn [orb andb].
  rewrite !andb_true_r.
  destruct s; rewrite ?implb_true_r, ?andb_true_r; cbn; auto; rewrite ?andb_false_r, ?andb_true_r, ?orb_false_r; auto.
  - destruct i; auto.
  - destruct o; auto. split; auto. discriminate.
  - destruct (full a y), (l_tcc T); cbn; auto. split; auto. discriminate.
  - destruct (full a y), (l_tmc T); cbn; auto. split; auto. discriminate.
  - destruct (full a y), (l_tmc T); cbn; auto. split; auto. discriminate.
  - destruct (look a y) as [[v|]|]; auto.
Qed.

(** * No flag *)
Section Traits.
Context (cxx20 : bool) (vm : vmode) (T : literal V) (S : sane T) (t : traits V) (E : l_traits T = Some t) (L : cxx20 || l_td T = true)
  (Hvm : vm <> Ignored) (U : usable t = true) (Z0 : vacant t (vacancy t) = true) 
  (Lv : forall v, vacant t v = false -> vacant t (l_left T v) = false).

Definition absT (c : opt V) : option V :=
  match o_mem c with Value v => if vacant t v then None else Some v | _ => None end.
Definition invT (c : opt V) : Prop := exists v, o_mem c = Value v.

Lemma verified_T v f : verified vm T (mkopt (Value v) f) = if vacant t v then None else Some (mkopt (Value v) f).
Proof. unfold verified, has. rewrite E. cbn. rewrite U. cbn [option_map]. rewrite (check_some vm Hvm). now destruct (vacant t v). Qed.

Lemma traits_run p n :
  option_map snd (run cxx20 vm T p (repeat None n)) =
  means_traits (l_left T) cxx20 (l_tcc T) (l_tca T) (l_tmc T) (l_tma T) (l_td T) (l_scalar T) (l_swap T) (builds t) (vacant t) p n.
Proof.
  unfold means_traits. rewrite <- (absS_blank absT n).
  assert (M : mk cxx20 T true = cxx20 || l_tma T) by (unfold mk; now rewrite andb_true_r).
  apply (run_means cxx20 vm T absT (fun _ => true) invT (cxx20 && builds t) true (l_td T || cxx20 && builds t) (fun v => negb (vacant t v)) (s_tcc S) (s_tmc S) (s_left S))
    with (rel := fun _ _ => True); auto using invS_blank.
  - intros c [v H]. unfold has, absT. rewrite E, H. cbn. rewrite U. cbn. now destruct (vacant t v).
  - intros c v _. unfold absT, active. destruct (o_mem c) as [|u|]; try discriminate. now destruct (vacant t u).
  - intros c v _. unfold absT. destruct (o_mem c) as [|u|]; try discriminate.
    destruct (vacant t u) eqn:K; [discriminate|]. intros [= ->]. now rewrite K.
  - intros c [v H] _. unfold as_is. now rewrite H.
  - unfold empty, set0. rewrite E, U, Z0, check_true. cbn [andb]. destruct (cxx20 && builds t); cbn; auto.
    repeat split; cbn. { now exists (vacancy t). } unfold absT. cbn. now rewrite Z0.
  - intros v. unfold in_place. rewrite verified_T. destruct (vacant t v) eqn:K; cbn; auto.
    repeat split; cbn. { now exists v. } unfold absT. cbn. now rewrite K.
  - intros v c b [u Hu] W. unfold construct, construct_at. rewrite Hu.
    assert (Mb : mk cxx20 T b = cxx20 || l_tma T).
    { unfold mk. destruct cxx20; auto. rewrite <- (W eq_refl). now rewrite andb_true_r. }
    rewrite Mb.
    assert (G : (if cxx20 then Some (Value v) else if l_tma T then Some (Value v) else None) =
                if cxx20 || l_tma T then Some (Value v) else None) by now destruct cxx20, (l_tma T).
    rewrite G. destruct (cxx20 || l_tma T); cbn [andb]; [|reflexivity].
    rewrite verified_T. destruct (vacant t v) eqn:K; cbn; auto.
    repeat split; cbn. { now exists v. } unfold absT. cbn. now rewrite K.
  - intros c [u Hu]. unfold reset. rewrite E.
    assert (K : forall m, set0 cxx20 vm t m = Some (Value (vacancy t)) ->
       gives (option_map (fun m => mkopt m false) (set0 cxx20 vm t m)) true
         (fun c' => invT c' /\ absT c' = None /\ warm' cxx20 (fun _ => true) c' true)).
    { intros m ->. cbn. repeat split; cbn. { now exists (vacancy t). } unfold absT. cbn. now rewrite Z0. }
    destruct (l_td T) eqn:D; cbn [orb].
    + rewrite implb_true_r. apply K. unfold set0. rewrite U, Z0, check_true, Hu. auto.
    + unfold has. rewrite E, Hu. unfold absT. rewrite Hu. cbn. rewrite U. cbn. destruct (vacant t u) eqn:F; cbn [negb isSome implb].
      * cbn. repeat split; cbn. { now exists u. } unfold absT. now rewrite Hu, F.
      * destruct (cxx20 && builds t) eqn:B.
        { apply K. unfold set0. rewrite U, Z0, check_true, B. auto. }
        unfold set0. rewrite U, Z0, check_true, B. reflexivity.
  - intros c v _ A. unfold absT in A |- *. cbn. destruct (o_mem c) as [|u|]; try discriminate.
    destruct (vacant t u) eqn:K; [discriminate|]. injection A as ->. split. { now exists (l_left T v). }
    now rewrite (Lv v K).
  - intros c u v _ A. rewrite verified_T. destruct (vacant t v) eqn:K; cbn; auto.
    repeat split; cbn. { now exists v. } unfold absT. cbn. now rewrite K.
  - intros s l w Hl _. unfold fitsG, lit_ok, triv_c, triv_m. rewrite L, M. cbn [andb].
    assert (W : forall x, slot l x <> None -> mk cxx20 T (warm (hotS (fun _ => true) l) x) = cxx20 || l_tma T).
    { intros x Hx. rewrite warm_hot. destruct (slot l x); [exact M|congruence]. }
    assert (X : forall x k, look (absS absT l) x = None -> on (absS absT l) x k = None).
    { intros x k Hx. unfold on. now rewrite Hx. }
    assert (SL : forall x, slot l x = None \/ slot l x <> None) by (intros x; destruct (slot l x); [right; congruence|auto]).
    assert (N : forall x, slot l x = None -> look (absS absT l) x = None) by (intros x Hx; rewrite look_abs, Hx; auto).
    destruct s; cbn [ideal fits_traits]; auto.
    + destruct (SL x) as [H|H]; [left; auto|]. right. now rewrite (W x H).
    + destruct (SL x) as [H|H]; [left; auto|]. right. destruct o; auto. now rewrite (W x H).
    + destruct (SL x) as [H|H]; [left; unfold on2; destruct (Nat.eqb x y); auto|]. right. now rewrite (W x H).
    + destruct (SL x) as [H|H]; [left; unfold on2; destruct (Nat.eqb x y); auto|]. right. now rewrite (W x H).
    + destruct (SL x) as [H|H]; [left; auto|]. right. now rewrite (W x H).
    + destruct (SL x) as [H|H]; [left; auto|]. right. now rewrite (W x H).
    + destruct (SL x) as [H|H]; [left; unfold on2; destruct (Nat.eqb x y); auto|].
      destruct (SL y) as [H'|H'].
      { left. unfold on2. destruct (Nat.eqb x y); auto. unfold on. rewrite (N y H').
        destruct (look (absS absT l) x); auto. }
      right. rewrite (W x H), (W y H').
      destruct (full _ x), (full _ y); cbn [andb implb orb]; rewrite ?andb_true_r; auto.
Qed.
End Traits.

(** * Nothing at all *)
Lemma blank_slot n x : slot (repeat (None : option (opt V)) n) x = None.
Proof.
  unfold slot. destruct (nth_error (repeat None n) x) as [[c|]|] eqn:K; auto.
  apply nth_error_In, repeat_spec in K. discriminate.
Qed.
Lemma stuck cxx20 vm T s p n :
  (cxx20 || l_td T = false \/ empty cxx20 vm T = None /\ (forall v, in_place vm T v = None)) ->
  run cxx20 vm T (s :: p) (repeat None n) = None.
Proof.
  intros H. cbn [run].
  enough (K : step cxx20 vm T s (repeat None n) = None) by now rewrite K.
  assert (D : forall x r, r = None -> declare (repeat (None : option (opt V)) n) x r = None).
  { intros x r ->. unfold declare. now destruct (free _ x). }
  destruct s; cbn [step]; unfold change, change2; rewrite ?blank_slot; cbn [obind]; auto;
    try (destruct (Nat.eqb x y); auto; fail).
  - destruct i; apply D; destruct H as [->|[H1 H2]]; auto; rewrite ?H1, ?H2; now destruct (cxx20 || l_td T).
  - apply D. destruct H as [->|[H1 H2]]; auto. unfold conv_ctor. rewrite H1. now destruct (cxx20 || l_td T).
Qed.
Theorem opaque_stuck cxx20 T t s p n : l_traits T = Some t -> usable t = false ->
  run cxx20 Checked T (s :: p) (repeat None n) = None.
Proof.
  intros E U. apply stuck. right. unfold empty, in_place, verified, has, set0. rewrite E. cbn. rewrite U. auto.
Qed.
Theorem cxx17_stuck vm T s p n : l_td T = false -> run false vm T (s :: p) (repeat None n) = None.
Proof. intros H. apply stuck. auto. Qed.

Lemma run_app_none cxx20 vm T s : (forall l, step cxx20 vm T s l = None) ->
  forall p l, In s p -> run cxx20 vm T p l = None.
Proof.
  intros H. induction p as [|s' p IH]; intros l [] ; cbn [run].
  - subst. now rewrite H.
  - destruct (step cxx20 vm T s' l) as [[l' e]|]; cbn; auto. now rewrite IH.
Qed.
(** Traits that assign never create an empty option. *)
Theorem no_default cxx20 vm T t x p l : l_traits T = Some t -> builds t = false ->
  In (New x None) p -> run cxx20 vm T p l = None.
Proof.
  intros E B. apply run_app_none. intros l'. cbn. unfold declare, empty, set0. rewrite E, B, andb_false_r.
  destruct (free l' x), (cxx20 || l_td T), (usable t && check vm (Some (vacant t (vacancy t)))); auto.
Qed.
(** Traits that cannot be evaluated: nothing that has to know whether there is a value. *)
Theorem opaque_asks cxx20 vm T t s p l : l_traits T = Some t -> usable t = false -> asks s = true ->
  In s p -> run cxx20 vm T p l = None.
Proof.
  intros E U A. apply run_app_none. intros l'.
  assert (Hh : forall c, has T c = None).
  { intros c. unfold has. rewrite E. unfold get0. rewrite U. now destruct (o_mem c). }
  assert (Hs : forall m, set0 cxx20 vm t m = None) by (intros m; unfold set0; now rewrite U).
  assert (He : empty cxx20 vm T = None) by (unfold empty; now rewrite E, Hs).
  assert (Hr : forall c, reset cxx20 vm T c = None).
  { intros c. unfold reset. rewrite E, Hs, Hh. now destruct (l_td T). }
  assert (D : forall x, declare l' x None = None) by (intros x; unfold declare; now destruct (free l' x)).
  assert (D2 : forall x y, declare2 l' x y None = None) by (intros x y; unfold declare2; now destruct (free l' x)).
  destruct s; try discriminate; cbn [step].
  - destruct i; [discriminate|]. rewrite He. destruct (cxx20 || l_td T); apply D.
  - unfold conv_ctor. rewrite He. destruct (cxx20 || l_td T); apply D.
  - destruct (slot l' y); auto. cbn. unfold take. destruct (move_ctor cxx20 vm T o) as [[c d]|]; cbn; rewrite ?Hr; apply D2.
  - destruct (slot l' y); auto. cbn. rewrite Hh. apply D.
  - unfold change. destruct (slot l' x); auto. cbn. now rewrite Hr.
  - unfold change. destruct (slot l' x); auto. cbn. unfold conv_assign. destruct o; rewrite ?Hh, ?Hr; auto.
  - unfold change. destruct (slot l' x); auto. cbn. unfold emplace. now rewrite Hr.
  - unfold change. destruct (slot l' x); auto. cbn. unfold try_emplace. now rewrite Hh.
  - unfold change2. destruct (Nat.eqb x y); auto. destruct (slot l' x); auto. cbn.
    destruct (slot l' y); auto. cbn. unfold swap. now rewrite Hh.
  - destruct (slot l' x); auto. cbn. now rewrite Hh.
Qed.

(** * Verification *)
(** What is evaluated with the verification is evaluated without it, with the same results. *)
Definition le {A} (a b : option A) : Prop := forall x, a = Some x -> b = Some x.
Definition softer (m m' : vmode) : Prop := forall b, check m b = true -> check m' b = true.
Lemma le_refl {A} (a : option A) : le a a.
Proof. intros x. auto. Qed.
Lemma le_bind {A B} (a b : option A) (f g : A -> option B) : le a b -> (forall x, le (f x) (g x)) -> le (obind a f) (obind b g).
Proof. intros H K x. destruct a as [y|]; cbn; [|discriminate]. rewrite (H y eq_refl). apply K. Qed.
Lemma le_map {A B} (a b : option A) (f : A -> B) : le a b -> le (option_map f a) (option_map f b).
Proof. intros H x. destruct a as [y|]; cbn; [|discriminate]. now rewrite (H y eq_refl). Qed.
Lemma le_if {A} (b : bool) (a a' c c' : option A) : le a a' -> le c c' -> le (if b then a else c) (if b then a' else c').
Proof. now destruct b. Qed.
Lemma softer_modes : softer Checked Assumed /\ softer Assumed Ignored.
Proof. split; intros [[]|]; cbn; auto. Qed.

Section Softer.
Context (cxx20 : bool) (T : literal V) (m m' : vmode) (H : softer m m').
Lemma le_check {A} b (x y : option A) : le x y -> le (if check m b then x else None) (if check m' b then y else None).
Proof. intros K z. destruct (check m b) eqn:E; [|discriminate]. rewrite (H b E). apply K. Qed.
Lemma le_set0 (t : traits V) x : le (set0 cxx20 m t x) (set0 cxx20 m' t x).
Proof. unfold set0. destruct (usable t); cbn [andb]; [apply le_check|]; apply le_refl. Qed.
Lemma le_empty : le (empty cxx20 m T) (empty cxx20 m' T).
Proof. unfold empty. destruct (l_traits T); [apply le_map, le_set0|apply le_refl]. Qed.
Lemma le_verified c : le (verified m T c) (verified m' T c).
Proof. apply le_check, le_refl. Qed.
Lemma le_in_place v : le (in_place m T v) (in_place m' T v).
Proof. apply le_check, le_refl. Qed.
Lemma le_construct v c : le (construct cxx20 m T v c) (construct cxx20 m' T v c).
Proof. unfold construct. destruct (construct_at cxx20 T v (o_mem c)); [apply le_verified|apply le_refl]. Qed.
Lemma le_reset c : le (reset cxx20 m T c) (reset cxx20 m' T c).
Proof.
  unfold reset. destruct (l_traits T); [|apply le_refl]. destruct (l_td T); [apply le_map, le_set0|].
  destruct (has T c) as [[]|]; try apply le_refl. apply le_map, le_set0.
Qed.
Ltac mono :=
  repeat first [apply le_refl | apply le_construct | apply le_in_place | apply le_reset | apply le_empty | apply le_verified | apply le_set0
               | apply le_map | apply le_if | apply le_bind; [|intros ?]].
Lemma le_step s l : le (step cxx20 m T s l) (step cxx20 m' T s l).
Proof.
  assert (Hc : forall d, le (copy_ctor cxx20 m T d) (copy_ctor cxx20 m' T d)) by (intros d; unfold copy_ctor; mono).
  assert (Hm : forall d, le (move_ctor cxx20 m T d) (move_ctor cxx20 m' T d)) by (intros d; unfold move_ctor; mono).
  destruct s; cbn [step]; unfold change, change2, declare, declare2; mono; auto.
  all: repeat match goal with o : option V |- _ => destruct o end.
  all: unfold conv_ctor, take, set_value, conv_assign, copy_assign, move_assign, emplace, try_emplace, swap; mono; auto.
  unfold get. apply le_check, le_refl.
Qed.
Lemma le_run p : forall l, le (run cxx20 m T p l) (run cxx20 m' T p l).
Proof.
  induction p as [|s p IH]; intros l; cbn [run]; [apply le_refl|].
  apply le_bind; [apply le_step|]. intros r. apply le_bind; [apply IH|]. intros r'. apply le_refl.
Qed.
End Softer.
Theorem verification cxx20 T p l r :
  (run cxx20 Checked T p l = Some r -> run cxx20 Assumed T p l = Some r) /\
  (run cxx20 Assumed T p l = Some r -> run cxx20 Ignored T p l = Some r).
Proof. split; apply le_run; apply softer_modes. Qed.
End Facts.

(** * Which types *)
Lemma evaluable_sound : forall t u, keeps_level_in t u -> compared u -> evaluable t = true.
Proof.
  induction 1; intros C; cbn [evaluable]; auto.
  - destruct t; cbn in *; tauto.
  - assert (max_level t2 <? max_level t1 = true)%N as -> by now apply N.ltb_lt. auto.
  - assert (max_level t2 <? max_level t1 = false)%N as -> by now apply N.ltb_ge. auto.
  - specialize (IHkeeps_level_in C).
    destruct (index_of_max_spec (map (fun f => max_level (snd f)) fs)) as (M & P1 & P2 & P3).
    { destruct fs; [destruct i; discriminate|discriminate]. }
    set (k := index_of_max _) in *.
    rewrite nth_error_map in P1. destruct (nth_error fs k) as [[o' t']|] eqn:K; cbn in P1; [|discriminate].
    injection P1 as <-.
    assert (i = k) as <-.
    { assert (B : nth_error (map (fun f => max_level (snd f)) fs) i = Some (max_level t)) by now rewrite nth_error_map, H.
      destruct (Nat.lt_trichotomy i k) as [Hlt|[->|Hlt]]; auto; exfalso.
      - specialize (P3 _ _ B Hlt). specialize (H0 _ _ _ K). lia.
      - specialize (H1 _ _ _ Hlt K). specialize (P2 _ _ B). lia. }
    rewrite (nth_indep _ _ (evaluable t)).
    + rewrite (map_nth (fun f => evaluable (snd f)) fs (o, t)). rewrite (nth_error_nth _ _ _ H). exact IHkeeps_level_in.
    + rewrite map_length. apply nth_error_Some. congruence.
Qed.
Lemma evaluable_complete : forall t, evaluable t = true -> exists u, keeps_level_in t u /\ compared u.
Proof.
  induction t using ty_ind'; cbn [evaluable]; intros E; try discriminate;
    try (eexists; split; [apply keeps_here|exact I]).
  - destruct (IHt E) as (u & K & C). exists u. split; auto. now constructor.
  - destruct (max_level t2 <? max_level t1)%N eqn:D.
    + apply N.ltb_lt in D. destruct (IHt1 E) as (u & K & C). exists u. split; auto. now apply keeps_first.
    + apply N.ltb_ge in D. destruct (IHt2 E) as (u & K & C). exists u. split; auto. now apply keeps_second.
  - destruct (index_of_max_spec (map (fun f => max_level (snd f)) fs)) as (M & H1 & H2 & H3).
    { destruct fs; cbn in *; discriminate. }
    set (k := index_of_max _) in *.
    rewrite nth_error_map in H1. destruct (nth_error fs k) as [[o t]|] eqn:K; cbn in H1; [|discriminate].
    injection H1 as <-.
    rewrite Forall_forall in H. specialize (H _ (nth_error_In _ _ K)). cbn in H.
    rewrite (nth_indep _ _ (evaluable t)) in E by (rewrite map_length; apply nth_error_Some; congruence).
    rewrite (map_nth (fun f => evaluable (snd f)) fs (o, t)), (nth_error_nth _ _ _ K) in E.
    destruct (H E) as (u & Ku & C). exists u. split; auto.
    apply (keeps_field fs _ _ k o t u K); auto.
    + intros j o' t' Hj. apply (H2 j). now rewrite nth_error_map, Hj.
    + intros j o' t' Hlt Hj. apply (H3 j); auto. now rewrite nth_error_map, Hj.
  - destruct (IHt E) as (u & K & C). exists u. split; auto. now constructor.
  - destruct (IHt E) as (u & K & C). exists u. split; auto. now constructor.
  - destruct (IHt E) as (u & K & C). exists u. split; auto. now constructor.
Qed.
Theorem evaluable_iff t : evaluable t = true <-> exists u, keeps_level_in t u /\ compared u.
Proof. split; [apply evaluable_complete|]. intros (u & K & C). eapply evaluable_sound; eauto. Qed.
Theorem described_stuck {V} cxx20 (T : literal V) t tr s p n : describes T t -> l_traits T = Some tr ->
  evaluable t = false -> run cxx20 Checked T (s :: p) (repeat None n) = None.
Proof.
  unfold describes. intros D E K. rewrite E in D. destruct D as [_ D].
  apply opaque_stuck with (t := tr); congruence.
Qed.
Theorem described_asks {V} cxx20 vm (T : literal V) t tr s p l : describes T t -> l_traits T = Some tr ->
  evaluable t = false -> asks s = true -> In s p -> run cxx20 vm T p l = None.
Proof.
  unfold describes. intros D E K. rewrite E in D. destruct D as [_ D].
  apply opaque_asks with (t := tr); congruence.
Qed.
