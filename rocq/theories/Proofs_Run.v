(** * Proofs about [run]: the steps a run makes *)

From Coq Require Import ZArith QArith Qabs Bool String List Lia Lqa Permutation.
From Verif Require Import Num Py Space Logger Forecast Module Container Microgrid
  Proofs_Num Proofs_Logger Spec_Module Spec_Reach Proofs_Module Proofs_Any
  Spec_Microgrid Proofs_Container.
Import ListNotations.
Local Open Scope string_scope.
Local Open Scope list_scope.
Local Open Scope Q_scope.

(** ** Monad *)
Lemma mbind_ok {S A B} (x : M S A) (f : A -> M S B) s s' b :
  mbind x f s = (s', Ok b) -> exists s1 a, x s = (s1, Ok a) /\ f a s1 = (s', Ok b).
Proof.
  unfold mbind. destruct (x s) as [s1 [a|e]]; [eauto|discriminate].
Qed.
Lemma mbind_any {S A B} (x : M S A) (f : A -> M S B) s s' r :
  mbind x f s = (s', r) ->
  (exists e, x s = (s', Err e) /\ r = Err e)
  \/ exists s1 a, x s = (s1, Ok a) /\ f a s1 = (s', r).
Proof.
  unfold mbind. destruct (x s) as [s1 [a|e]].
  - eauto.
  - intros E. inversion E; subst. eauto.
Qed.
Lemma mlift_ok {S A} (r : res A) (s s' : S) a : mlift r s = (s', Ok a) -> s' = s /\ r = Ok a.
Proof. unfold mlift. intros E. inversion E. auto. Qed.

(** ** Lists updated at one place *)
Lemma set_nth_length {A} (l : list A) : forall i v, length (set_nth l i v) = length l.
Proof. induction l; intros [|i] v; simpl; auto. Qed.
Lemma nth_set_nth {A} (l : list A) : forall i j v,
  nth_error (set_nth l i v) j
  = if Nat.eqb i j then (match nth_error l j with Some _ => Some v | None => None end)
    else nth_error l j.
Proof.
  induction l as [|x l IH]; intros [|i] [|j] v; simpl; auto.
  - destruct (Nat.eqb i j); reflexivity.
Qed.
Lemma nth_set_same {A} (l : list A) i v x : nth_error l i = Some x ->
  nth_error (set_nth l i v) i = Some v.
Proof. intros E. rewrite nth_set_nth, Nat.eqb_refl, E. reflexivity. Qed.
Lemma nth_set_other {A} (l : list A) i j v : i <> j ->
  nth_error (set_nth l i v) j = nth_error l j.
Proof. intros N. rewrite nth_set_nth. apply Nat.eqb_neq in N. rewrite N. reflexivity. Qed.
Lemma set_nth_id {A} (l : list A) : forall i x, nth_error l i = Some x -> set_nth l i x = l.
Proof.
  induction l as [|y l IH]; intros [|i] x E; simpl in *; try discriminate; auto.
  - inversion E. reflexivity.
  - f_equal. auto.
Qed.
Lemma set_nth_map_same {A B} (f : A -> B) (l : list A) : forall i x v,
  nth_error l i = Some x -> f v = f x -> map f (set_nth l i v) = map f l.
Proof.
  induction l as [|y l IH]; intros [|i] x v E F; simpl in *; try discriminate; auto.
  - inversion E; subst. f_equal. exact F.
  - f_equal. eauto.
Qed.
Lemma mg_set_mods_id (g : mgrid Q) : mg_set_mods g (mg_mods g) = g.
Proof. destruct g. reflexivity. Qed.

(** ** One module of the microgrid *)
Lemma with_module_any {A} i (f : M (module Q) A) g g' r :
  with_module i f g = (g', r) ->
  (g' = g /\ nth_error (mg_mods g) i = None /\ r = raise KeyError "no such module")
  \/ exists m m', nth_error (mg_mods g) i = Some m /\ f m = (m', r)
       /\ g' = mg_set_mods g (set_nth (mg_mods g) i m').
Proof.
  unfold with_module. destruct (nth_error (mg_mods g) i) as [m|]; intros E.
  - destruct (f m) as [m' r'] eqn:F. inversion E; subst. right. eauto.
  - inversion E; auto.
Qed.
Lemma with_module_ok {A} i (f : M (module Q) A) g g' a :
  with_module i f g = (g', Ok a) ->
  exists m m', nth_error (mg_mods g) i = Some m /\ f m = (m', Ok a)
       /\ g' = mg_set_mods g (set_nth (mg_mods g) i m').
Proof.
  intros E. destruct (with_module_any _ _ _ _ _ E) as [(_ & _ & C)|D]; [discriminate|exact D].
Qed.
Lemma get_module_ok i (g g' : mgrid Q) m :
  get_module i g = (g', Ok m) -> g' = g /\ nth_error (mg_mods g) i = Some m.
Proof.
  unfold get_module. intros E. destruct (with_module_ok _ _ _ _ _ E) as (m0 & m' & N & F & ->).
  unfold mget in F. inversion F; subst. rewrite (set_nth_id _ _ _ N), mg_set_mods_id. auto.
Qed.

(** ** Steps made in a row *)
Lemma performs_app ms es1 ms1 es2 ms2 :
  performs ms es1 ms1 -> performs ms1 es2 ms2 -> performs ms (es1 ++ es2) ms2.
Proof.
  induction 1 as [|ms e es m m' ms' N E P IH]; intros P2; simpl; [exact P2|].
  econstructor; eauto.
Qed.
Lemma performs_split es1 : forall ms es2 ms2,
  performs ms (es1 ++ es2) ms2 -> exists ms1, performs ms es1 ms1 /\ performs ms1 es2 ms2.
Proof.
  induction es1 as [|e es1 IH]; simpl; intros ms es2 ms2 P.
  - exists ms. split; [constructor|exact P].
  - inversion P as [|? ? ? m m' ? N E P']; subst.
    destruct (IH _ _ _ P') as (ms1 & P1 & P2). exists ms1. split; [econstructor; eauto|exact P2].
Qed.
Lemma performs_length ms es ms' : performs ms es ms' -> length ms' = length ms.
Proof.
  induction 1 as [|ms e es m m' ms' N E P IH]; [reflexivity|]. rewrite IH. apply set_nth_length.
Qed.

(** The microgrid changed only in its modules, by these steps. *)
Definition traced (g : mgrid Q) (es : list event) (g' : mgrid Q) : Prop :=
  performs (mg_mods g) es (mg_mods g') /\ g' = mg_set_mods g (mg_mods g').
Lemma traced_nil g : traced g [] g.
Proof. split; [constructor|]. symmetry. apply mg_set_mods_id. Qed.
Lemma traced_app g es1 g1 es2 g2 :
  traced g es1 g1 -> traced g1 es2 g2 -> traced g (es1 ++ es2) g2.
Proof.
  intros [P1 E1] [P2 E2]. split; [eapply performs_app; eauto|].
  rewrite E2 at 1. rewrite E1. reflexivity.
Qed.
Lemma traced_one g e m m' :
  nth_error (mg_mods g) (ev_id e) = Some m ->
  step (ev_act e) (ev_norm e) m = (m', Ok (ev_out e)) ->
  traced g [e] (mg_set_mods g (set_nth (mg_mods g) (ev_id e) m')).
Proof.
  intros N E. split; [|reflexivity]. econstructor; eauto. constructor.
Qed.

(** The step collected so far after some events. *)
Definition collect (es : list event) (st : mstep Q) : mstep Q :=
  fold_left (fun st e => mstep_append (ev_name e) (ev_out e) st) es st.
Lemma collect_app es1 es2 st : collect (es1 ++ es2) st = collect es2 (collect es1 st).
Proof. apply fold_left_app. Qed.

Lemma step_append_ok nm i (a : pyval Q) n st g g' st' :
  step_append nm i a n st g = (g', Ok st') ->
  exists e, ev_name e = nm /\ ev_id e = i /\ ev_act e = a /\ ev_norm e = n
    /\ traced g [e] g' /\ st' = collect [e] st
    /\ exists m m', nth_error (mg_mods g) i = Some m /\ step a n m = (m', Ok (ev_out e))
         /\ g' = mg_set_mods g (set_nth (mg_mods g) i m').
Proof.
  unfold step_append. intros E. apply mbind_ok in E. destruct E as (g1 & out & E & R).
  unfold mret in R. inversion R; subst. destruct (with_module_ok _ _ _ _ _ E) as (m & m' & N & S & ->).
  exists (mkEvent nm i a n out). simpl. conj; auto.
  - apply (traced_one g (mkEvent nm i a n out) m m' N S).
  - eauto 10.
Qed.

(** Who was stepped, with which action. *)
Definition ev_key (e : event) : string * nat := (ev_name e, ev_id e).
Definition ev_order (e : event) : string * nat * pyval Q := (ev_name e, ev_id e, ev_act e).

Lemma run_fixed_ok l : forall st g g' st',
  mfold (fun st (ni : string * nat) => step_append (fst ni) (snd ni) (VS n0) false st) l st g = (g', Ok st') ->
  exists es, traced g es g' /\ st' = collect es st /\ map ev_key es = l
    /\ Forall (fun e => ev_act e = VS 0 /\ ev_norm e = false) es.
Proof.
  induction l as [|[nm i] l IH]; intros st g g' st' E; simpl in E.
  - unfold mret in E. inversion E; subst. exists []. conj; auto using traced_nil.
  - apply mbind_ok in E. destruct E as (g1 & st1 & E1 & E2).
    destruct (step_append_ok _ _ _ _ _ _ _ _ E1) as (e & N1 & N2 & N3 & N4 & T & -> & _).
    destruct (IH _ _ _ _ E2) as (es & T2 & -> & K & F).
    exists (e :: es). conj.
    + eapply (traced_app _ [e] _ es); eassumption.
    + rewrite <- collect_app. reflexivity.
    + simpl. rewrite K. unfold ev_key. rewrite N1, N2. reflexivity.
    + constructor; auto.
Qed.

Lemma ctrl_one_ok nm n l : forall st g g' st',
  mfold (fun st (ia : nat * pyval Q) => step_append nm (fst ia) (snd ia) n st) l st g = (g', Ok st') ->
  exists es, traced g es g' /\ st' = collect es st
    /\ map ev_order es = map (fun ia => (nm, fst ia, snd ia)) l
    /\ Forall (fun e => ev_norm e = n) es.
Proof.
  induction l as [|[i a] l IH]; intros st g g' st' E; simpl in E.
  - unfold mret in E. inversion E; subst. exists []. conj; auto using traced_nil.
  - apply mbind_ok in E. destruct E as (g1 & st1 & E1 & E2).
    destruct (step_append_ok _ _ _ _ _ _ _ _ E1) as (e & N1 & N2 & N3 & N4 & T & -> & _).
    destruct (IH _ _ _ _ E2) as (es & T2 & -> & K & F).
    exists (e :: es). conj.
    + eapply (traced_app _ [e] _ es); eassumption.
    + rewrite <- collect_app. reflexivity.
    + simpl. rewrite K. unfold ev_order. rewrite N1, N2, N3. reflexivity.
    + constructor; auto.
Qed.

(** The orders a control gives to the modules of a name-to-modules view. *)
Definition orders (c : control Q) (d : dict (list nat)) : list (string * nat * pyval Q) :=
  concat (map (fun kl => match dget (fst kl) c with
                         | Some v => map (fun ia => (fst kl, fst ia, snd ia))
                                         (combine (snd kl) (ctrl_list v))
                         | None => []
                         end) d).

Lemma dget_dremove {A} k k' (d : dict A) : k <> k' -> dget k (dremove k' d) = dget k d.
Proof.
  intros N. induction d as [|[k0 v] d IH]; simpl; [reflexivity|].
  destruct (String.eqb k' k0) eqn:E1.
  - apply String.eqb_eq in E1. subst. destruct (String.eqb k k0) eqn:E2; [|reflexivity].
    apply String.eqb_eq in E2. congruence.
  - simpl. rewrite IH. reflexivity.
Qed.

Lemma orders_ext c c' d : (forall k, In k (map fst d) -> dget k c = dget k c') ->
  orders c d = orders c' d.
Proof.
  unfold orders. induction d as [|[k l] d IH]; intros H; simpl; [reflexivity|].
  rewrite (H k) by (simpl; auto). f_equal. apply IH. intros. apply H. simpl. auto.
Qed.

Lemma run_ctrl_ok n d : forall c st g g' cs',
  NoDup (map fst d) ->
  mfold (fun cs (kl : string * list nat) =>
           match dget (fst kl) (fst cs) with
           | None => mraise ValueError "Control for module not found"
           | Some v =>
               mbind (mfold (fun st ia => step_append (fst kl) (fst ia) (snd ia) n st)
                            (combine (snd kl) (ctrl_list v)) (snd cs))
                     (fun st' => mret (dremove (fst kl) (fst cs), st'))
           end) d (c, st) g = (g', Ok cs') ->
  exists es, traced g es g' /\ snd cs' = collect es st
    /\ map ev_order es = orders c d
    /\ Forall (fun e => ev_norm e = n) es
    /\ (forall k, In k (map fst d) -> dget k c <> None).
Proof.
  induction d as [|[k l] d IH]; intros c st g g' cs' ND E; simpl in E.
  - unfold mret in E. inversion E; subst. exists []. conj; auto using traced_nil.
  - apply mbind_ok in E. destruct E as (g1 & cs1 & E1 & E2). simpl in E1.
    destruct (dget k c) as [v|] eqn:Dk; [|discriminate].
    apply mbind_ok in E1. destruct E1 as (g2 & st1 & E1 & R). unfold mret in R. inversion R; subst g2 cs1.
    destruct (ctrl_one_ok _ _ _ _ _ _ _ E1) as (es1 & T1 & -> & K1 & F1).
    inversion ND as [|? ? NI ND']; subst.
    destruct (IH _ _ _ _ _ ND' E2) as (es2 & T2 & -> & K2 & F2 & C).
    exists (es1 ++ es2). conj.
    + eapply traced_app; eauto.
    + symmetry. apply collect_app.
    + rewrite map_app, K1, K2. unfold orders at 2. simpl. rewrite Dk. f_equal.
      apply orders_ext. intros k' I. apply dget_dremove. intros ->. contradiction.
    + apply Forall_app. auto.
    + simpl. intros k' [<-|I]; [congruence|].
      rewrite <- (dget_dremove k' k); [apply C; exact I|]. intros ->. contradiction.
Qed.

(** ** Flex modules *)

(** What module [m] is asked for when [r] is left to cover (or to get rid of). *)
Definition share (src : bool) (m : module Q) (r : Q) : res Q :=
  if src then
    if is_source (m_kind m) then
      match max_production m with
      | Ok (BFin y) => Ok (if Qlt_le_dec y r then y else r)
      | Ok BInf => Ok r
      | Ok BNone => raise TypeError ""
      | Err e => Err e
      end
    else Ok 0
  else
    if is_sink (m_kind m) then
      match max_consumption m with
      | Ok (BFin y) => Ok (if Qlt_le_dec y r then y else r)
      | Ok BInf => Ok r
      | Ok BNone => raise TypeError ""
      | Err e => Err e
      end
    else Ok 0.

(** Flex modules stepped one after the other, each asked for its share of what
    is left. *)
Inductive flexed (src : bool) : list (module Q) -> Q -> list event -> list (module Q) -> Q -> Prop :=
| fx_nil ms r : flexed src ms r [] ms r
| fx_cons ms r e es m m' ms' x a r1 r2 :
    nth_error ms (ev_id e) = Some m ->
    share src m r = Ok x ->
    ev_norm e = false -> ev_act e = VS a -> a == (if src then x else - x) ->
    step (ev_act e) false m = (m', Ok (ev_out e)) ->
    r1 == r - x ->
    flexed src (set_nth ms (ev_id e) m') r1 es ms' r2 ->
    flexed src ms r (e :: es) ms' r2.

Lemma flexed_performs src ms r es ms' r' : flexed src ms r es ms' r' -> performs ms es ms'.
Proof.
  induction 1; [constructor|]. econstructor; eauto. congruence.
Qed.

Lemma gt_bound_share x (b : bound Q) s : gt_bound x b = Ok s ->
  s = match b with BFin y => if Qlt_le_dec y x then true else false | _ => false end /\ b <> BNone.
Proof.
  destruct b; simpl; intros E; inversion E; subst; clear E; split; try congruence.
  unum. destruct (Qlt_le_dec x0 x) as [L|L].
  - apply negb_true_iff. destruct (Qle_bool x x0) eqn:Q; [qprop; lra|reflexivity].
  - apply negb_false_iff. apply Qle_bool_iff. exact L.
Qed.

Lemma run_excess_ok l : forall st x g g' sx,
  mfold (fun se (ni : string * nat) =>
           mbind (get_module (snd ni)) (fun m =>
           mbind (if negb (is_sink (m_kind m)) then mret n0
                   else mbind (mlift (max_consumption m)) (fun mx =>
                        mbind (mlift (gt_bound (snd se) mx)) (fun small =>
                        match (small : bool), mx with
                        | true, BFin x => mret (nmul (nopp n1) x)
                        | _, _ => mret (nmul (nopp n1) (snd se))
                        end))) (fun amt =>
           mbind (step_append (fst ni) (snd ni) (VS amt) false (fst se)) (fun st' =>
           mret (st', nadd (snd se) amt)))))
        l (st, x) g = (g', Ok sx) ->
  exists es, traced g es g' /\ fst sx = collect es st /\ map ev_key es = l
    /\ flexed false (mg_mods g) x es (mg_mods g') (snd sx).
Proof.
  induction l as [|[nm i] l IH]; intros st x g g' sx E; simpl in E.
  - unfold mret in E. inversion E; subst. exists []. conj; auto using traced_nil. constructor.
  - apply mbind_ok in E. destruct E as (g1 & se1 & E1 & E2). simpl in E1.
    apply mbind_ok in E1. destruct E1 as (g2 & m & GM & E1).
    apply get_module_ok in GM. destruct GM as [-> NM].
    apply mbind_ok in E1. destruct E1 as (g2 & amt & A & E1).
    assert (g2 = g /\ exists y, share false m x = Ok y /\ amt == - y) as (-> & y & SH & AY).
    { unfold share. destruct (is_sink (m_kind m)); simpl in A.
      - apply mbind_ok in A. destruct A as (g3 & mx & L & A). apply mlift_ok in L. destruct L as [-> ->].
        apply mbind_ok in A. destruct A as (g3 & sm & L & A). apply mlift_ok in L. destruct L as [-> G].
        apply gt_bound_share in G. destruct G as [-> NB]. destruct mx as [y| |]; [|idtac|congruence].
        + destruct (Qlt_le_dec y x); unfold mret in A; apply pair_equal_spec in A; destruct A as [<- A];
            injection A as <-; split; auto; eexists; split; try reflexivity; unum; lra.
        + unfold mret in A; apply pair_equal_spec in A; destruct A as [<- A];
            injection A as <-; split; auto; eexists; split; try reflexivity; unum; lra.
      - unfold mret in A; apply pair_equal_spec in A; destruct A as [<- A];
            injection A as <-; split; auto; eexists; split; try reflexivity; unum; lra. }
    apply mbind_ok in E1. destruct E1 as (g2 & st1 & E1 & R).
    destruct (step_append_ok _ _ _ _ _ _ _ _ E1) as (e & N1 & N2 & N3 & N4 & T & -> & m1 & m1' & NM' & SE & G2).
    rewrite NM in NM'. inversion NM'; subst m1.
    unfold mret in R. apply pair_equal_spec in R; destruct R as [<- R]; injection R as <-. simpl in E2.
    destruct (IH _ _ _ _ _ E2) as (es & T2 & F & K & FX).
    exists (e :: es). conj.
    + eapply (traced_app _ [e] _ es); eassumption.
    + rewrite F. reflexivity.
    + simpl. rewrite K. unfold ev_key. rewrite N1, N2. reflexivity.
    + econstructor; [rewrite N2; exact NM|exact SH|exact N4|exact N3|exact AY|rewrite N3; exact SE| |].
      2:{ rewrite N2. rewrite G2 in FX. simpl in FX. exact FX. }
      simpl. unum. lra.
Qed.

Lemma run_deficit_ok l : forall st x g g' sx,
  mfold (fun se (ni : string * nat) =>
           mbind (get_module (snd ni)) (fun m =>
           mbind (if negb (is_source (m_kind m)) then mret n0
                   else mbind (mlift (max_production m)) (fun mx =>
                        mbind (mlift (gt_bound (snd se) mx)) (fun small =>
                        match (small : bool), mx with
                        | true, BFin x => mret x
                        | _, _ => mret (snd se)
                        end))) (fun amt =>
           mbind (step_append (fst ni) (snd ni) (VS amt) false (fst se)) (fun st' =>
           mret (st', nsub (snd se) amt)))))
        l (st, x) g = (g', Ok sx) ->
  exists es, traced g es g' /\ fst sx = collect es st /\ map ev_key es = l
    /\ flexed true (mg_mods g) x es (mg_mods g') (snd sx).
Proof.
  induction l as [|[nm i] l IH]; intros st x g g' sx E; simpl in E.
  - unfold mret in E. inversion E; subst. exists []. conj; auto using traced_nil. constructor.
  - apply mbind_ok in E. destruct E as (g1 & se1 & E1 & E2). simpl in E1.
    apply mbind_ok in E1. destruct E1 as (g2 & m & GM & E1).
    apply get_module_ok in GM. destruct GM as [-> NM].
    apply mbind_ok in E1. destruct E1 as (g2 & amt & A & E1).
    assert (g2 = g /\ exists y, share true m x = Ok y /\ amt == y) as (-> & y & SH & AY).
    { unfold share. destruct (is_source (m_kind m)); simpl in A.
      - apply mbind_ok in A. destruct A as (g3 & mx & L & A). apply mlift_ok in L. destruct L as [-> ->].
        apply mbind_ok in A. destruct A as (g3 & sm & L & A). apply mlift_ok in L. destruct L as [-> G].
        apply gt_bound_share in G. destruct G as [-> NB]. destruct mx as [y| |]; [|idtac|congruence].
        + destruct (Qlt_le_dec y x); unfold mret in A; apply pair_equal_spec in A; destruct A as [<- A];
            injection A as <-; split; auto; eexists; split; try reflexivity; unum; lra.
        + unfold mret in A; apply pair_equal_spec in A; destruct A as [<- A];
            injection A as <-; split; auto; eexists; split; try reflexivity; unum; lra.
      - unfold mret in A; apply pair_equal_spec in A; destruct A as [<- A];
            injection A as <-; split; auto; eexists; split; try reflexivity; unum; lra. }
    apply mbind_ok in E1. destruct E1 as (g2 & st1 & E1 & R).
    destruct (step_append_ok _ _ _ _ _ _ _ _ E1) as (e & N1 & N2 & N3 & N4 & T & -> & m1 & m1' & NM' & SE & G2).
    rewrite NM in NM'. inversion NM'; subst m1.
    unfold mret in R. apply pair_equal_spec in R; destruct R as [<- R]; injection R as <-. simpl in E2.
    destruct (IH _ _ _ _ _ E2) as (es & T2 & F & K & FX).
    exists (e :: es). conj.
    + eapply (traced_app _ [e] _ es); eassumption.
    + rewrite F. reflexivity.
    + simpl. rewrite K. unfold ev_key. rewrite N1, N2. reflexivity.
    + econstructor; [rewrite N2; exact NM|exact SH|exact N4|exact N3|exact AY|rewrite N3; exact SE| |].
      2:{ rewrite N2. rewrite G2 in FX. simpl in FX. exact FX. }
      simpl. unum. lra.
Qed.

(** ** What stays the same, whether a call raised or not *)
Definition mod_rel (m m' : module Q) : Prop := mod_ok m -> mod_ok m' /\ mod_same m m'.
Lemma mod_rel_refl m : mod_rel m m.
Proof. intros O. split; [exact O|apply mod_same_refl]. Qed.
Lemma mod_rel_trans m1 m2 m3 : mod_rel m1 m2 -> mod_rel m2 m3 -> mod_rel m1 m3.
Proof.
  intros R1 R2 O. destruct (R1 O) as [O2 S2]. destruct (R2 O2) as [O3 S3].
  split; [exact O3|]. eapply mod_same_trans; eauto.
Qed.
Lemma step_rel (a : pyval Q) n m m' r : step a n m = (m', r) -> mod_rel m m'.
Proof. intros E O. destruct (step_good _ _ _ _ _ O E) as (S & O' & _). auto. Qed.
Lemma reset_rel (m m' : module Q) r : reset m = (m', r) -> mod_rel m m'.
Proof. intros E O. destruct (reset_good _ _ _ O E) as (S & O' & _). auto. Qed.

Lemma Forall2_refl {A} (R : A -> A -> Prop) (l : list A) : (forall x, R x x) -> Forall2 R l l.
Proof. intros H. induction l; constructor; auto. Qed.
Lemma Forall2_trans {A} (R : A -> A -> Prop) (H : forall x y z, R x y -> R y z -> R x z) l1 :
  forall l2 l3, Forall2 R l1 l2 -> Forall2 R l2 l3 -> Forall2 R l1 l3.
Proof.
  induction l1; intros l2 l3 F1 F2; inversion F1; subst; inversion F2; subst; constructor; eauto.
Qed.
Lemma Forall2_set_nth {A} (R : A -> A -> Prop) (H : forall x, R x x) (l : list A) : forall i x y,
  nth_error l i = Some x -> R x y -> Forall2 R l (set_nth l i y).
Proof.
  induction l as [|z l IH]; intros [|i] x y N C; simpl in *; try discriminate.
  - inversion N; subst. constructor; [exact C|]. apply Forall2_refl; auto.
  - constructor; [apply H|]. eapply IH; eauto.
Qed.
Lemma Forall2_nth {A B} (R : A -> B -> Prop) l1 : forall l2 i x,
  Forall2 R l1 l2 -> nth_error l1 i = Some x -> exists y, nth_error l2 i = Some y /\ R x y.
Proof.
  induction l1 as [|a l1 IH]; intros l2 [|i] x F N; simpl in N; try discriminate; inversion F; subst.
  - inversion N; subst. simpl. eauto.
  - simpl. eauto.
Qed.
Lemma Forall2_nth_r {A B} (R : A -> B -> Prop) l1 : forall l2 i y,
  Forall2 R l1 l2 -> nth_error l2 i = Some y -> exists x, nth_error l1 i = Some x /\ R x y.
Proof.
  induction l1 as [|a l1 IH]; intros l2 [|i] y F N; inversion F; subst; simpl in N; try discriminate.
  - inversion N; subst. simpl. eauto.
  - simpl. eauto.
Qed.

(** A call that only touches modules. *)
Definition inner (R : module Q -> module Q -> Prop) (g g' : mgrid Q) : Prop :=
  g' = mg_set_mods g (mg_mods g') /\ Forall2 R (mg_mods g) (mg_mods g').
Definition inners (R : module Q -> module Q -> Prop) {A} (f : M (mgrid Q) A) : Prop :=
  forall g g' r, f g = (g', r) -> inner R g g'.

Section Inners.
Variable R : module Q -> module Q -> Prop.
Hypothesis Rr : forall m, R m m.
Hypothesis Rt : forall m1 m2 m3, R m1 m2 -> R m2 m3 -> R m1 m3.
Lemma inner_refl g : inner R g g.
Proof. split; [symmetry; apply mg_set_mods_id|]. apply Forall2_refl; auto. Qed.
Lemma inner_trans g1 g2 g3 : inner R g1 g2 -> inner R g2 g3 -> inner R g1 g3.
Proof.
  intros [E1 F1] [E2 F2]. split.
  - rewrite E2 at 1. rewrite E1. reflexivity.
  - eapply Forall2_trans; eauto.
Qed.
Lemma inners_ret {A} (a : A) : inners R (mret a).
Proof. intros g g' r E. unfold mret in E. inversion E; subst. apply inner_refl. Qed.
Lemma inners_lift {A} (a : res A) : inners R (mlift a).
Proof. intros g g' r E. unfold mlift in E. inversion E; subst. apply inner_refl. Qed.
Lemma inners_raise {A} c t : inners R (@mraise _ A c t).
Proof. intros g g' r E. unfold mraise in E. inversion E; subst. apply inner_refl. Qed.
Lemma inners_get : inners R (@mget (mgrid Q)).
Proof. intros g g' r E. unfold mget in E. inversion E; subst. apply inner_refl. Qed.
Lemma inners_bind {A B} (x : M (mgrid Q) A) (f : A -> M (mgrid Q) B) :
  inners R x -> (forall a, inners R (f a)) -> inners R (mbind x f).
Proof.
  intros Hx Hf g g' r E. apply mbind_any in E. destruct E as [(e & E & _)|(g1 & a & E1 & E2)].
  - eapply Hx; eauto.
  - eapply inner_trans; [eapply Hx; eauto|eapply Hf; eauto].
Qed.
Lemma inners_fold {A B} (f : B -> A -> M (mgrid Q) B) l : (forall b a, inners R (f b a)) ->
  forall b, inners R (mfold f l b).
Proof.
  intros Hf. induction l; intros b; simpl; [apply inners_ret|].
  apply inners_bind; auto.
Qed.
Lemma inners_with {A} i (f : M (module Q) A) :
  (forall m m' r, f m = (m', r) -> R m m') -> inners R (with_module i f).
Proof.
  intros Hf g g' r E. destruct (with_module_any _ _ _ _ _ E) as [(-> & _)|(m & m' & N & F & ->)].
  - apply inner_refl.
  - split; [reflexivity|]. simpl. eapply Forall2_set_nth; eauto.
Qed.
Lemma inners_module i : inners R (get_module i).
Proof.
  apply inners_with. intros m m' r E. unfold mget in E. inversion E; subst. apply Rr.
Qed.
End Inners.

Ltac inns := repeat first
  [ apply inners_ret | apply inners_lift | apply inners_raise | apply inners_get
  | apply inners_bind | apply inners_fold | apply inners_module | apply inners_with
  | intros; apply mod_rel_refl | intros; eapply mod_rel_trans; eassumption
  | intros; progress (match goal with |- inners _ (match ?x with _ => _ end) => destruct x end)
  | intros; eapply step_rel; eassumption
  | intros; eapply reset_rel; eassumption
  | progress intros ].

Lemma step_append_inner nm i (a : pyval Q) n st : inners mod_rel (step_append nm i a n st).
Proof. unfold step_append. inns. Qed.
Lemma run_fixed_inner g st : inners mod_rel (run_fixed g st).
Proof. unfold run_fixed. inns. Qed.
Lemma run_controllable_inner g c n st : inners mod_rel (run_controllable g c n st).
Proof. unfold run_controllable. inns. Qed.
Lemma run_excess_inner g st x : inners mod_rel (run_excess g st x).
Proof. unfold run_excess. inns. Qed.
Lemma run_deficit_inner g st x : inners mod_rel (run_deficit g st x).
Proof. unfold run_deficit. inns. Qed.

(** ** The whole run *)

(** The row [run] logs in the balance log. *)
Definition bal_row (fp fa p a p3 a3 r3 s3 : Q) : dict Q :=
  dupdate [("reward", r3); ("shaped_reward", s3)]
    (log_dict p3 a3 (log_dict (nsub p fp) (nsub a fa) (log_dict fp fa [] "fixed") "controllable")
              "overall").

(** All the modules a run steps, with the collected results. *)
Record ran (c : control Q) (n : bool) (g : mgrid Q) (ci : cost_info Q)
    (efix ectl eflex : list event) (ms1 ms2 ms3 : list (module Q)) (r2 : Q)
    (fp fa p a p3 a3 r3 s3 : Q) : Prop := mkRan {
  rn_cost : get_cost_info g = Ok ci;
  rn_fix : performs (mg_mods g) efix ms1;
  rn_fix_keys : map ev_key efix = part_tuples Fixed g;
  rn_fix_acts : Forall (fun e => ev_act e = VS 0 /\ ev_norm e = false) efix;
  rn_ctl : performs ms1 ectl ms2;
  rn_ctl_orders : map ev_order ectl = orders c (part_dict Controllable g);
  rn_ctl_norm : Forall (fun e => ev_norm e = n) ectl;
  rn_ctl_given : forall k, In k (map fst (part_dict Controllable g)) -> dget k c <> None;
  rn_flex : flexed (negb (nltb 0 (p - a))) ms2 (if nltb 0 (p - a) then p - a else - (p - a)) eflex ms3 r2;
  rn_flex_keys : map ev_key eflex = part_tuples Flex g;
  rn_b1 : exists r s, mstep_balance (mg_shaper g) ci (collect efix mstep_init) = Ok (fp, fa, r, s);
  rn_b2 : exists r s, mstep_balance (mg_shaper g) ci (collect (efix ++ ectl) mstep_init) = Ok (p, a, r, s);
  rn_b3 : mstep_balance (mg_shaper g) ci (collect (efix ++ ectl ++ eflex) mstep_init)
          = Ok (p3, a3, r3, s3)
}.

Definition run_result (g : mgrid Q) (ci : cost_info Q) es (p3 a3 s3 : Q) : res (run_out Q) :=
  if isclose p3 a3
  then Ok (ms_obs (collect es mstep_init), s3, ms_done (collect es mstep_init),
           output_info (collect es mstep_init))
  else raise RuntimeError "Microgrid modules unable to balance energy".

Lemma mstep_balance_shaped sh ci (st : mstep Q) p a r s :
  mstep_balance sh ci st = Ok (p, a, r, s) ->
  shaped_reward sh ci st = Ok s /\ r = ms_reward st
  /\ info_sum "provided_energy" (ms_info st) = Ok p
  /\ info_sum "absorbed_energy" (ms_info st) = Ok a.
Proof.
  unfold mstep_balance, rbind. intros E.
  destruct (info_sum "provided_energy" (ms_info st)); [|discriminate].
  destruct (info_sum "absorbed_energy" (ms_info st)); [|discriminate].
  destruct (shaped_reward sh ci st); [|discriminate]. inversion E. auto.
Qed.

Lemma run_any (c : control Q) n g g' r :
  run c n g = (g', r) ->
  (exists e, r = Err e /\ inner mod_rel g g')
  \/ exists ci efix ectl eflex ms1 ms2 ms3 r2 fp fa p a p3 a3 r3 s3 lg x,
       ran c n g ci efix ectl eflex ms1 ms2 ms3 r2 fp fa p a p3 a3 r3 s3
       /\ Forall2 mod_rel (mg_mods g) ms3
       /\ logger_log (bal_row fp fa p a p3 a3 r3 s3) (mg_balance g) = (lg, x)
       /\ g' = mg_set_logs (mg_set_mods g ms3) lg (mg_other g)
       /\ r = match x with Ok _ => run_result g ci (efix ++ ectl ++ eflex) p3 a3 s3 | Err e => Err e end.
Proof.
  unfold run. intros E.
  apply mbind_any in E. destruct E as [(e & E & _)|(g0 & a0 & E0 & E)]; [discriminate|].
  unfold mget in E0. inversion E0; subst g0 a0. clear E0.
  apply mbind_any in E. destruct E as [(e & E & ->)|(g0 & ci & E0 & E)].
  { left. exists e. split; [reflexivity|]. eapply inners_lift; eauto using mod_rel_refl. }
  apply mlift_ok in E0. destruct E0 as [-> CI].
  apply mbind_any in E. destruct E as [(e & E & ->)|(g1 & st1 & E1 & E)].
  { left. exists e. split; [reflexivity|]. eapply run_fixed_inner; eauto. }
  pose proof (run_fixed_inner _ _ _ _ _ E1) as I1.
  unfold run_fixed in E1. destruct (run_fixed_ok _ _ _ _ _ E1) as (efix & T1 & -> & K1 & F1).
  apply mbind_any in E. destruct E as [(e & E & ->)|(g1' & b1 & E2 & E)].
  { left. exists e. split; [reflexivity|]. unfold mlift in E. inversion E; subst. exact I1. }
  apply mlift_ok in E2. destruct E2 as [-> B1]. destruct b1 as [[[fp fa] r1] s1].
  apply mbind_any in E. destruct E as [(e & E & ->)|(g2 & st2 & E2 & E)].
  { left. exists e. split; [reflexivity|]. eapply inner_trans; [eauto using mod_rel_trans|exact I1|].
    eapply run_controllable_inner; eauto. }
  assert (I2 : inner mod_rel g g2).
  { eapply inner_trans; [eauto using mod_rel_trans|exact I1|]. eapply run_controllable_inner; eauto. }
  unfold run_controllable in E2. apply mbind_ok in E2. destruct E2 as (g2' & cs & E2 & R).
  unfold mret in R. apply pair_equal_spec in R. destruct R as [<- R]. injection R as <-.
  destruct (run_ctrl_ok _ _ _ _ _ _ _ (NoDup_to_dict _) E2) as (ectl & T2 & CS & K2 & F2 & GI).
  rewrite CS in E. clear E2 cs CS. rewrite <- collect_app in E.
  apply mbind_any in E. destruct E as [(e & E & ->)|(g2x & b2 & E2 & E)].
  { left. exists e. split; [reflexivity|]. unfold mlift in E. inversion E; subst. exact I2. }
  apply mlift_ok in E2. destruct E2 as [-> B2]. destruct b2 as [[[p a] r2] s2]. rename g2' into g2.
  apply mbind_any in E. destruct E as [(e & E & ->)|(g3 & st3 & E3 & E)].
  { left. exists e. split; [reflexivity|]. eapply inner_trans; [eauto using mod_rel_trans|exact I2|].
    destruct (nltb n0 (nsub p a)); [eapply run_excess_inner|eapply run_deficit_inner]; eauto. }
  assert (I3 : inner mod_rel g g3).
  { eapply inner_trans; [eauto using mod_rel_trans|exact I2|].
    destruct (nltb n0 (nsub p a)); [eapply run_excess_inner|eapply run_deficit_inner]; eauto. }
  assert (exists eflex, traced g2 eflex g3 /\ fst st3 = collect (efix ++ ectl ++ eflex) mstep_init
          /\ map ev_key eflex = part_tuples Flex g
          /\ flexed (negb (nltb 0 (p - a))) (mg_mods g2) (if nltb 0 (p - a) then p - a else - (p - a)) eflex (mg_mods g3) (snd st3))
    as (eflex & T3 & CS & K3 & FX).
  { change (nltb n0 (nsub p a)) with (nltb 0 (p - a)) in E3. destruct (nltb 0 (p - a)); simpl.
    - unfold run_excess in E3. destruct (run_excess_ok _ _ _ _ _ _ E3) as (es & T3 & CS & K3 & FX).
      exists es. rewrite app_assoc, collect_app. auto.
    - unfold run_deficit in E3. destruct (run_deficit_ok _ _ _ _ _ _ E3) as (es & T3 & CS & K3 & FX).
      exists es. rewrite app_assoc, collect_app. auto. }
  rewrite CS in E.
  apply mbind_any in E. destruct E as [(e & E & ->)|(g3x & b3 & E4 & E)].
  { left. exists e. split; [reflexivity|]. unfold mlift in E. inversion E; subst. exact I3. }
  apply mlift_ok in E4. destruct E4 as [-> B3]. destruct b3 as [[[p3 a3] r3] s3].
  right. fold (bal_row fp fa p a p3 a3 r3 s3) in E.
  assert (MB : mg_balance g3 = mg_balance g /\ mg_other g3 = mg_other g).
  { destruct I3 as [-> _]. auto. }
  destruct (logger_log (bal_row fp fa p a p3 a3 r3 s3) (mg_balance g)) as [lg x] eqn:LG.
  exists ci, efix, ectl, eflex, (mg_mods g1), (mg_mods g2), (mg_mods g3), (snd st3),
    fp, fa, p, a, p3, a3, r3, s3, lg, x.
  destruct T1 as [T1 _]. destruct T2 as [T2 _]. destruct T3 as [T3 _].
  split; [|split; [exact (proj2 I3)|split; [exact LG|]]].
  { constructor; eauto. }
  apply mbind_any in E. destruct MB as [MB1 MB2]. rewrite MB1, LG, MB2 in E.
  assert (GG : mg_set_logs (mg_set_mods g (mg_mods g3)) lg (mg_other g) = mg_set_logs g3 lg (mg_other g)).
  { destruct I3 as [I3 _]. rewrite I3 at 2. reflexivity. }
  rewrite GG. clear GG. destruct E as [(e & E & ->)|(g4 & u & E4 & E)].
  - inversion E; subst. auto.
  - inversion E4; subst g4 x. unfold run_result.
    apply mstep_balance_shaped in B3. destruct B3 as (SR & _).
    destruct (isclose p3 a3).
    + apply mbind_any in E. rewrite SR in E.
      destruct E as [(e & E & _)|(g4 & s & E5 & E)]; [discriminate|].
      apply mlift_ok in E5. destruct E5 as [-> E5]. injection E5 as <-.
      unfold mret in E. inversion E; subst. auto.
    + unfold mraise in E. inversion E; subst. auto.
Qed.
