(** * Proofs about samples of the PV: all days *)

From Coq Require Import ZArith QArith Qabs Qminmax Lqa Lia Bool String List.
From Verif Require Import Num Py NonModular Sampling Spec_Sampling Spec_Module Proofs_Num Proofs_SampleGrid Proofs_SampleLoad Proofs_SamplePv.
Import ListNotations.
Local Open Scope string_scope.
Local Open Scope list_scope.
Local Open Scope Q_scope.

Lemma Forall2_length_ {A B} (R : A -> B -> Prop) l l' : Forall2 R l l' -> length l = length l'.
Proof. induction 1; cbn; congruence. Qed.
Lemma Forall2_nth_ {A B} (R : A -> B -> Prop) l l' : Forall2 R l l' -> forall i a, nth_error l i = Some a -> exists b, nth_error l' i = Some b /\ R a b.
Proof.
  induction 1 as [|x y l l' H F IH]; intros [|i] a H1; cbn [nth_error] in *; try discriminate.
  - injection H1 as <-. eauto.
  - exact (IH i a H1).
Qed.
Lemma nth_error_seq_ a n i : (i < n)%nat -> nth_error (seq a n) i = Some (a + i)%nat.
Proof. intro H. rewrite (nth_error_nth' _ 0%nat) by now rewrite seq_length. now rewrite seq_nth. Qed.
Lemma nth_error_number {A} (l : list A) i x : nth_error l i = Some x -> forall a, nth_error (combine (seq a (length l)) l) i = Some ((a + i)%nat, x).
Proof.
  revert i. induction l as [|y l IH]; intros [|i] H a; try discriminate; cbn [length seq combine nth_error].
  - injection H as ->. now rewrite Nat.add_0_r.
  - rewrite (IH i H (S a)). do 2 f_equal. lia.
Qed.
Lemma concat_length24 {A} (ls : list (list A)) : (forall c, In c ls -> length c = 24%nat) -> length (concat ls) = (24 * length ls)%nat.
Proof.
  induction ls as [|c ls IH]; intro H; [reflexivity|]. cbn [concat length]. rewrite app_length, (H c), IH by (try (left; reflexivity); intros; apply H; right; assumption). lia.
Qed.
Lemma nth_concat24 {A} (ls : list (list A)) : (forall c, In c ls -> length c = 24%nat) -> forall d h, (h < 24)%nat ->
  nth_error (concat ls) (24 * d + h) = match nth_error ls d with Some c => nth_error c h | None => None end.
Proof.
  induction ls as [|c ls IH]; intros H d h L.
  - cbn [concat]. destruct (24 * d + h)%nat, d; reflexivity.
  - cbn [concat]. assert (Lc : length c = 24%nat) by (apply H; left; reflexivity). destruct d as [|d].
    + cbn [nth_error]. replace (24 * 0 + h)%nat with h by lia. apply nth_error_app1. lia.
    + cbn [nth_error]. rewrite nth_error_app2 by lia. replace (24 * S d + h - length c)%nat with (24 * d + h)%nat by lia.
      apply IH; [intros; apply H; right; assumption|exact L].
Qed.
Lemma split24 i : (i = 24 * (i / 24) + i mod 24 /\ i mod 24 < 24)%nat.
Proof. split; [apply Nat.div_mod; lia|apply Nat.mod_upper_bound; lia]. Qed.

Section Days.
  Variables (least most : Q -> Q) (tri : Q -> Q -> Q -> Q -> Q).

  Definition day_good (a : pv_args Q) (data : list Q) (u : nat -> Q) (d dawn dusk : nat) (peak : Q) : Prop :=
    peak_of tri a (light_bounds least most (nadd (of_nat (d * 24)) (ndiv (nadd (of_nat dawn) (of_nat dusk)) (nofZ 2)))) (day_of_data data d) (u d) = Ok peak.

  Lemma parabolas_ok (a : pv_args Q) data u bases : sample_parabola least most tri a data u = Ok bases ->
    exists D, all_sunny data D /\ length bases = D /\ (forall c, In c bases -> length c = 24%nat) /\ arcs data D (day_good a data u) (concat bases).
  Proof.
    unfold sample_parabola. intro H. apply rmapM_ok in H. set (D := ((length data + 23) / 24)%nat) in *.
    assert (L : length bases = D) by (rewrite <- (Forall2_length_ _ _ _ H); apply seq_length).
    assert (DE : forall d, (d < D)%nat -> exists base, nth_error bases d = Some base /\ sample_day least most tri a data d (u d) = Ok base).
    { intros d I. destruct (Forall2_nth_ _ _ _ H d d) as [b [B1 B2]]; [rewrite nth_error_seq_ by exact I; reflexivity|]. exists b. auto. }
    assert (CH : forall c, In c bases -> length c = 24%nat).
    { intros c I. apply In_nth_error in I. destruct I as [d I]. assert (Ld : (d < D)%nat) by (apply nth_error_Some_lt in I; lia).
      destruct (DE d Ld) as [b [B1 B2]]. assert (c = b) by congruence. subst b. apply sample_day_ok in B2. destruct B2 as [_ [dawn [dusk [peak [_ [_ ->]]]]]].
      now rewrite map_length, seq_length. }
    assert (W : whole_days data D).
    { unfold whole_days. assert (B : (length data <= 24 * D < length data + 24)%nat).
      { unfold D. pose proof (split24 (length data + 23)). lia. }
      destruct D as [|D']; [lia|]. destruct (DE D' ltac:(lia)) as [b [B1 B2]]. apply sample_day_ok in B2. lia. }
    exists D. split; [|split; [exact L|split; [exact CH|]]].
    - split; [exact W|]. intros d I. destruct (DE d I) as [b [B1 B2]]. apply sample_day_ok in B2. destruct B2 as [_ [dawn [dusk [peak [S1 _]]]]]. eauto.
    - split; [rewrite (concat_length24 _ CH); now rewrite L|]. intros d I. destruct (DE d I) as [b [B1 B2]]. apply sample_day_ok in B2.
      destruct B2 as [_ [dawn [dusk [peak [S1 [P1 ->]]]]]]. exists dawn, dusk, peak. split; [exact S1|]. split; [exact P1|].
      intros h Lh. rewrite (nth_concat24 _ CH d h Lh), B1. exists (parabola dawn dusk peak h). split.
      + rewrite nth_error_map, nth_error_seq_ by exact Lh. reflexivity.
      + apply parabola_arc. pose proof (su_order _ _ _ S1). lia.
  Qed.
  Lemma rmapM_all_ok {A B} (f : A -> res B) l : (forall x, In x l -> exists y, f x = Ok y) -> exists ys, rmapM f l = Ok ys.
  Proof.
    induction l as [|x l IH]; intro H; [exists []; reflexivity|]. destruct (H x ltac:(left; reflexivity)) as [y Y]. destruct IH as [ys YS]; [intros; apply H; right; assumption|].
    exists (y :: ys). cbn. rewrite Y. cbn. rewrite YS. reflexivity.
  Qed.
  Lemma parabolas_uniform (a : pv_args Q) data u D : all_sunny data D -> az_shape a = Some "uniform" -> uniform u ->
    exists bases, sample_parabola least most tri a data u = Ok bases.
  Proof.
    intros [W S1] A U. unfold sample_parabola. apply rmapM_all_ok. intros d I. apply in_seq in I.
    assert (E : ((length data + 23) / 24 = D)%nat).
    { unfold whole_days in W. rewrite W. pose proof (ceil_day D 0 ltac:(lia)) as C. cbn [Nat.eqb] in C. now rewrite Nat.add_0_r in C. }
    rewrite E in I. destruct (S1 d ltac:(lia)) as [dawn [dusk Sd]]. rewrite (sample_day_sunny _ _ _ _ _ _ _ _ _ Sd).
    destruct (U d) as [U1 U2]. destruct (peak_uniform least most tri a data d dawn dusk (u d) A U1 U2 Sd) as [peak [P _]]. rewrite P. eexists. reflexivity.
  Qed.
  Lemma parabolas_drawn (a : pv_args Q) data u D : az_shape a = Some "uniform" -> uniform u -> forall base,
    arcs data D (day_good a data u) base -> arcs data D (peak_drawn least most a data) base.
  Proof.
    intros A U base [L H]. split; [exact L|]. intros d I. destruct (H d I) as [dawn [dusk [peak [S1 [P R]]]]]. exists dawn, dusk, peak. split; [exact S1|]. split; [|exact R].
    destruct (U d) as [U1 U2]. destruct (peak_uniform least most tri a data d dawn dusk (u d) A U1 U2 S1) as [p [P1 P2]]. unfold day_good in P. assert (p = peak) by congruence. now subst p.
  Qed.

  (** ** Noise *)

  Lemma noise_ok (a : pv_args Q) bases z noisy : (forall c, In c bases -> length c = 24%nat) -> add_noise a bases z = Ok noisy ->
    (forall c, In c noisy -> length c = 24%nat) /\ length noisy = length bases
    /\ (az_noise a <> None -> 0 <= az_std a /\ forall v, In v (concat bases) -> 0 <= v)
    /\ forall d h v, (h < 24)%nat -> nth_error (concat bases) (24 * d + h) = Some v ->
         exists x, nth_error (concat noisy) (24 * d + h) = Some x /\ x == v + match az_noise a with None => 0 | Some _ => az_std a * v * z d h end.
  Proof.
    intros CH. unfold add_noise. destruct (az_noise a) as [s|] eqn:EN.
    - destruct (nltb (az_std a) n0 || existsb (existsb (fun x => nltb x n0)) bases) eqn:E; [discriminate|]. apply orb_false_iff in E. destruct E as [E1 E2].
      intro H. injection H as H.
      set (f := fun e : nat * list Q => map (fun x => nadd (snd x) (nmul (nmul (az_std a) (snd x)) (z (fst e) (fst x)))) (combine (seq 0 (length (snd e))) (snd e))) .
      subst noisy. assert (CN : forall c, In c (map f (combine (seq 0 (length bases)) bases)) -> length c = 24%nat).
      { intros c I. apply in_map_iff in I. destruct I as [[i b] [<- I]]. apply in_combine_r in I. unfold f. cbn [snd]. rewrite map_length, combine_length, seq_length, (CH b I). reflexivity. }
      split; [exact CN|]. split; [rewrite map_length, combine_length, seq_length; lia|]. split.
      + intros _. split.
        * cbn in E1. unfold Qltb in E1. apply negb_false_iff in E1. now apply Qle_bool_iff.
        * intros v I. apply in_concat in I. destruct I as [c [I J]]. apply not_true_iff_false in E2. destruct (Qlt_le_dec v 0) as [N|N]; [|exact N].
          exfalso. apply E2. apply existsb_exists. exists c. split; [exact I|]. apply existsb_exists. exists v. split; [exact J|]. cbn. unfold Qltb. apply negb_true_iff.
          apply not_true_iff_false. intro Q1. apply Qle_bool_iff in Q1. lra.
      + intros d h v Lh I. rewrite (nth_concat24 _ CH d h Lh) in I.
        match goal with |- exists x, nth_error (concat ?l) _ = _ /\ _ => change l with (map f (combine (seq 0 (length bases)) bases)) end.
        rewrite (nth_concat24 _ CN d h Lh). destruct (nth_error bases d) as [c|] eqn:EB; [|discriminate].
        rewrite nth_error_map, (nth_error_number _ _ _ EB 0). cbn [option_map]. unfold f. cbn [fst snd]. rewrite nth_error_map, (nth_error_number _ _ _ I 0). cbn [option_map fst snd Nat.add].
        eexists. split; [reflexivity|]. cbn [nadd nmul Q_ops]. reflexivity.
    - intro H. injection H as <-. split; [exact CH|]. split; [reflexivity|]. split; [congruence|]. intros d h v Lh I. exists v. split; [exact I|]. lra.
  Qed.
  Lemma at_least_max x : at_least 0 x == Qmax 0 x.
  Proof. destruct (at_least_spec 0 x) as [[A B]|[A B]]; rewrite B; [rewrite Q.max_l|rewrite Q.max_r]; lra. Qed.
  Lemma noise_sampled (a : pv_args Q) bases z noisy s : (forall c, In c bases -> length c = 24%nat) -> add_noise a bases z = Ok noisy ->
    check_sample n0 (concat noisy) = Ok s -> sampled_around a z (concat bases) s /\ forall x, In x s -> 0 <= x.
  Proof.
    intros CH N C. destruct (noise_ok a bases z noisy CH N) as [CN [L [_ E]]]. apply check_ok in C. destruct C as [_ [-> NN]]. split; [|exact NN]. split.
    - rewrite map_length, (concat_length24 _ CN), (concat_length24 _ CH), L. reflexivity.
    - intros d h v Lh I. destruct (E d h v Lh I) as [x [X1 X2]]. exists (at_least 0 x). split; [rewrite nth_error_map, X1; reflexivity|].
      rewrite at_least_max. rewrite X2. reflexivity.
  Qed.
  Lemma noise_succeeds (a : pv_args Q) bases z : (forall c, In c bases -> length c = 24%nat) -> 0 <= az_std a -> (forall v, In v (concat bases) -> 0 <= v) ->
    exists noisy s, add_noise a bases z = Ok noisy /\ check_sample n0 (concat noisy) = Ok s.
  Proof.
    intros CH ST NN. assert (E : exists noisy, add_noise a bases z = Ok noisy).
    { unfold add_noise. destruct (az_noise a); [|eauto]. assert (E1 : nltb (az_std a) n0 = false). { cbn. unfold Qltb. apply negb_false_iff. now apply Qle_bool_iff. }
      rewrite E1. assert (E2 : existsb (existsb (fun x => nltb x n0)) bases = false).
      { apply not_true_iff_false. intro H. apply existsb_exists in H. destruct H as [c [I H]]. apply existsb_exists in H. destruct H as [v [J H]]. cbn in H. unfold Qltb in H.
        apply negb_true_iff in H. apply not_true_iff_false in H. apply H. apply Qle_bool_iff. apply NN. apply in_concat. eauto. }
      rewrite E2. eexists. reflexivity. }
    destruct E as [noisy E]. destruct (noise_ok a bases z noisy CH E) as [CN [L _]]. exists noisy, (map (at_least 0) (concat noisy)). split; [exact E|].
    apply check_ok. split; [rewrite (concat_length24 _ CN); lia|]. split; [reflexivity|]. intros x I. apply in_map_iff in I. destruct I as [y [<- _]].
    rewrite at_least_max. apply Q.le_max_l.
  Qed.
End Days.

(** ** Whole samples *)

Section Whole.
  Variables (least most : Q -> Q) (tri : Q -> Q -> Q -> Q -> Q).
  Notation sample_pv := (sample_pv least most tri).

  Lemma moved_none l c : moved_towards None l c c.
  Proof. split; [reflexivity|]. intros i x y X Y. exists x. split; [exact X|reflexivity]. Qed.
  Lemma moved_some r (l c : list Q) : length l = length c ->
    moved_towards (Some r) l c (map (fun e => nadd (fst e) (nmul r (nsub (snd e) (fst e)))) (combine c l)).
  Proof.
    intro L. split; [rewrite map_length, combine_length; lia|]. intros i x y X Y. rewrite nth_error_map.
    assert (E : nth_error (combine c l) i = Some (x, y)).
    { clear L. revert l i X Y. induction c as [|a c IH]; intros [|b l] [|i] X Y; try discriminate; cbn in *; [congruence|now apply IH]. }
    rewrite E. cbn [option_map fst snd]. eexists. split; [reflexivity|]. reflexivity.
  Qed.

  Definition rest (a : pv_args Q) (named : bool) (data : list Q) (base : list (list Q)) (z : nat -> nat -> Q) : res (list Q) :=
    (let? noisy := add_noise a base z in
     let? checked := check_sample n0 (concat noisy) in
     match az_each a with
     | None => Ok checked
     | Some r => if named then Ok (map (fun e => nadd (fst e) (nmul r (nsub (snd e) (fst e)))) (combine checked data)) else raise KeyError "GH illum (lx)"
     end)%py.
  Lemma pv_stored (a : pv_args Q) u z v base : known_noises a = true -> az_shape a = None -> pv_base v = Some base ->
    sample_pv a u z v = (v, rest a (pv_named v) (pv_data v) base z).
  Proof.
    intros K A B. unfold Sampling.sample_pv, rest. unfold mbind, mget. rewrite K, A, B. cbn [negb]. unfold mret, mlift, mraise.
    destruct (add_noise a base z); [|reflexivity]. cbn [rbind]. destruct (check_sample n0 (concat a0)); [|reflexivity]. cbn [rbind].
    destruct (az_each a); [|reflexivity]. destruct (pv_named v); reflexivity.
  Qed.
  Lemma pv_drawn (a : pv_args Q) u z v s : known_noises a = true -> az_shape a = Some s ->
    sample_pv a u z v = match sample_parabola least most tri a (pv_data v) u with
                        | Err e => (v, Err e)
                        | Ok base => (mkNoisyPv (pv_data v) (pv_named v) (Some base), rest a (pv_named v) (pv_data v) base z)
                        end.
  Proof.
    intros K A. unfold Sampling.sample_pv, rest. unfold mbind, mget. rewrite K, A. cbn [negb]. unfold mret, mlift, mraise, mmodify.
    destruct (sample_parabola least most tri a (pv_data v) u) as [base|e]; [|reflexivity].
    destruct (add_noise a base z); [|reflexivity]. cbn [rbind]. destruct (check_sample n0 (concat a0)); [|reflexivity]. cbn [rbind].
    destruct (az_each a); [|reflexivity]. destruct (pv_named v); reflexivity.
  Qed.
  Lemma pv_unknown (a : pv_args Q) u z v : known_noises a = false -> fst (sample_pv a u z v) = v /\ raises ValueError (snd (sample_pv a u z v)).
  Proof. intro K. unfold Sampling.sample_pv, mbind, mget. rewrite K. cbn. split; [reflexivity|]. eexists. split; reflexivity. Qed.

  Lemma rest_ok (a : pv_args Q) named data base z s : (forall c, In c base -> length c = 24%nat) -> length data = (24 * length base)%nat ->
    rest a named data base z = Ok s ->
    exists c, sampled_around a z (concat base) c /\ (forall x, In x c -> 0 <= x) /\ moved_towards (az_each a) data c s /\ (az_each a <> None -> named = true)
      /\ (az_noise a <> None -> 0 <= az_std a /\ forall v, In v (concat base) -> 0 <= v).
  Proof.
    intros CH L H. unfold rest in H. destruct (add_noise a base z) as [noisy|] eqn:N; [|discriminate]. cbn [rbind] in H.
    destruct (check_sample n0 (concat noisy)) as [c|] eqn:C; [|discriminate]. cbn [rbind] in H. exists c.
    destruct (noise_sampled a base z noisy c CH N C) as [S1 S2]. destruct (noise_ok a base z noisy CH N) as [_ [_ [NN _]]]. split; [exact S1|]. split; [exact S2|].
    destruct S1 as [SL _]. rewrite (concat_length24 _ CH) in SL.
    destruct (az_each a) as [r|].
    - destruct named; [|discriminate]. injection H as <-. split; [apply moved_some; lia|]. split; [reflexivity|exact NN].
    - injection H as <-. split; [apply moved_none|]. split; [congruence|exact NN].
  Qed.
  Lemma rest_succeeds (a : pv_args Q) named data base z : (forall c, In c base -> length c = 24%nat) -> 0 <= az_std a -> (forall v, In v (concat base) -> 0 <= v) ->
    (az_each a <> None -> named = true) -> exists s, rest a named data base z = Ok s.
  Proof.
    intros CH ST NN NM. destruct (noise_succeeds a base z CH ST NN) as [noisy [c [N C]]]. unfold rest. rewrite N. cbn [rbind]. rewrite C. cbn [rbind].
    destruct (az_each a); [|eauto]. rewrite NM by congruence. eauto.
  Qed.
  Lemma rest_unnamed (a : pv_args Q) data base z : (forall c, In c base -> length c = 24%nat) -> 0 <= az_std a -> (forall v, In v (concat base) -> 0 <= v) ->
    az_each a <> None -> raises KeyError (rest a false data base z).
  Proof.
    intros CH ST NN NM. destruct (noise_succeeds a base z CH ST NN) as [noisy [c [N C]]]. unfold rest. rewrite N. cbn [rbind]. rewrite C. cbn [rbind].
    destruct (az_each a); [|congruence]. eexists. split; reflexivity.
  Qed.

  Lemma known_uniform (a : pv_args Q) : az_shape a = Some "uniform" -> (az_noise a = None \/ az_noise a = Some "gaussian") -> known_noises a = true.
  Proof. intros A [B|B]; unfold known_noises; rewrite A, B; reflexivity. Qed.
  Lemma known_ok (a : pv_args Q) u z v v' s : sample_pv a u z v = (v', Ok s) -> known_noises a = true.
  Proof. intro H. destruct (known_noises a) eqn:K; [reflexivity|]. destruct (pv_unknown a u z v K) as [_ [e [E _]]]. rewrite H in E. discriminate. Qed.

  Definition kept (v v' : noisy_pv Q) (base : list (list Q)) : Prop :=
    v' = mkNoisyPv (pv_data v) (pv_named v) (Some base) /\ forall c, In c base -> length c = 24%nat.

  Lemma sample_new (a : pv_args Q) u z v v' s : az_shape a = Some "uniform" -> uniform u -> sample_pv a u z v = (v', Ok s) ->
    exists days base c, all_sunny (pv_data v) days /\ length base = days /\ kept v v' base /\ arcs (pv_data v) days (peak_drawn least most a (pv_data v)) (concat base)
      /\ sampled_around a z (concat base) c /\ (forall x, In x c -> 0 <= x) /\ moved_towards (az_each a) (pv_data v) c s.
  Proof.
    intros A U H. pose proof (known_ok _ _ _ _ _ _ H) as K. rewrite (pv_drawn a u z v _ K A) in H.
    destruct (sample_parabola least most tri a (pv_data v) u) as [base|e] eqn:P; [|discriminate]. apply pair_equal_spec in H. destruct H as [<- R].
    destruct (parabolas_ok least most tri a _ _ _ P) as [D [S1 [L [CH AR]]]].
    assert (LD : length (pv_data v) = (24 * length base)%nat) by (destruct S1 as [W _]; unfold whole_days in W; now rewrite L).
    destruct (rest_ok a _ _ _ _ _ CH LD R) as [c [C1 [C2 [C3 _]]]].
    exists D, base, c. split; [exact S1|]. split; [exact L|]. split; [split; [reflexivity|exact CH]|]. split; [now apply (parabolas_drawn least most tri a _ u)|]. auto.
  Qed.
  Lemma sample_again (a : pv_args Q) u z v v' s base : az_shape a = None -> pv_base v = Some base -> (forall c, In c base -> length c = 24%nat) ->
    length (pv_data v) = (24 * length base)%nat -> sample_pv a u z v = (v', Ok s) ->
    v' = v /\ exists c, sampled_around a z (concat base) c /\ (forall x, In x c -> 0 <= x) /\ moved_towards (az_each a) (pv_data v) c s.
  Proof.
    intros A B CH L H. pose proof (known_ok _ _ _ _ _ _ H) as K. rewrite (pv_stored a u z v _ K A B) in H. apply pair_equal_spec in H. destruct H as [<- R].
    split; [reflexivity|]. destruct (rest_ok a _ _ _ _ _ CH L R) as [c [C1 [C2 [C3 _]]]]. eauto.
  Qed.
  Lemma sample_none (a : pv_args Q) u z v : az_shape a = None -> pv_base v = None ->
    fst (sample_pv a u z v) = v /\ raises ValueError (snd (sample_pv a u z v)).
  Proof.
    intros A B. unfold Sampling.sample_pv, mbind, mget. destruct (known_noises a); rewrite ?A, ?B; cbn; (split; [reflexivity|]; eexists; split; reflexivity).
  Qed.

  (** Peaks are not negative. *)
  Lemma curves_positive hour lb ub : least hour <= most hour -> between_curves least most hour lb ub -> 0 <= lb /\ lb <= ub.
  Proof.
    intro LM. unfold between_curves. destruct (Qle_bool 0 (least hour)) eqn:E1.
    - apply Qle_bool_iff in E1. intros [-> ->]. lra.
    - apply not_true_iff_false in E1. rewrite Qle_bool_iff in E1. destruct (Qle_bool 0 (most hour)) eqn:E2.
      + apply Qle_bool_iff in E2. intros [-> ->]. lra.
      + apply not_true_iff_false in E2. rewrite Qle_bool_iff in E2. intros [-> ->]. rewrite Q.min_r, Q.max_l by lra. lra.
  Qed.
  Lemma peak_positive lower upper d dawn dusk peak : (forall t, least t <= most t) -> 0 <= lower -> 0 <= upper ->
    peak_between least most lower upper d dawn dusk peak -> 0 <= peak.
  Proof.
    intros LM L U [lb [ub [w [B [W1 [W2 ->]]]]]]. destruct (curves_positive _ _ _ (LM _) B) as [B1 B2].
    assert (0 <= lower * (ub - lb)) by (apply Qmult_le_0_compat; lra). assert (0 <= upper * (ub - lb)) by (apply Qmult_le_0_compat; lra).
    assert (0 <= (1 - w) * (lb + lower * (ub - lb))) by (apply Qmult_le_0_compat; lra). assert (0 <= w * (lb + upper * (ub - lb))) by (apply Qmult_le_0_compat; lra). lra.
  Qed.
  Lemma drawn_positive (a : pv_args Q) l d dawn dusk peak : (forall t, least t <= most t) -> 0 <= az_lower a -> 0 <= az_upper a ->
    (forall r, az_peak a = Some r -> 0 <= r /\ r <= 1) -> sunny (day_of_data l d) dawn dusk ->
    peak_drawn least most a l d dawn dusk peak -> 0 <= peak.
  Proof.
    intros LM L U R S1. unfold peak_drawn. destruct (az_peak a) as [r|]; [|apply peak_positive; assumption].
    intros [p [m [P [[M1 M2] ->]]]]. apply peak_positive in P; [|assumption..]. destruct (R r eq_refl) as [R1 R2].
    assert (0 <= m).
    { pose proof (su_hours _ _ _ S1) as LN. pose proof (su_night _ _ _ S1) as N. specialize (M2 (nth 23 (day_of_data l d) 1)).
      assert (In (nth 23 (day_of_data l d) 1) (day_of_data l d)) by (apply nth_In; lia). specialize (M2 H). lra. }
    assert (0 <= (1 - r) * p) by (apply Qmult_le_0_compat; lra). assert (0 <= r * m) by (apply Qmult_le_0_compat; lra). lra.
  Qed.
  Lemma arcs_positive l D good base : arcs l D good base -> (forall d dawn dusk peak, sunny (day_of_data l d) dawn dusk -> good d dawn dusk peak -> 0 <= peak) ->
    forall v, In v base -> 0 <= v.
  Proof.
    intros [L H] G v I. apply In_nth_error in I. destruct I as [i I]. destruct (split24 i) as [E1 E2]. assert (B : (i < 24 * D)%nat) by (apply nth_error_Some_lt in I; lia).
    destruct (H (i / 24)%nat) as [dawn [dusk [peak [S1 [P A]]]]]; [apply Nat.div_lt_upper_bound; lia|]. destruct (A (i mod 24)%nat E2) as [w [W AW]].
    rewrite <- E1 in W. assert (w = v) by congruence. subst w. apply (arc_bounds _ _ _ _ _ AW). now apply (G _ _ _ _ S1).
  Qed.
  Lemma sample_succeeds (a : pv_args Q) u z v days : az_shape a = Some "uniform" -> (az_noise a = None \/ az_noise a = Some "gaussian") ->
    uniform u -> all_sunny (pv_data v) days -> (forall t, least t <= most t) -> 0 <= az_lower a -> 0 <= az_upper a -> 0 <= az_std a ->
    (forall r, az_peak a = Some r -> 0 <= r /\ r <= 1) -> (az_each a <> None -> pv_named v = true) ->
    exists v' s, sample_pv a u z v = (v', Ok s).
  Proof.
    intros A N U SN LM L0 U0 ST PK NM. rewrite (pv_drawn a u z v _ (known_uniform a A N) A).
    destruct (parabolas_uniform least most tri a (pv_data v) u days SN A U) as [base P]. rewrite P.
    destruct (parabolas_ok least most tri a _ _ _ P) as [D [S1 [L [CH AR]]]]. apply (parabolas_drawn least most tri a _ u _ A U) in AR.
    destruct (rest_succeeds a (pv_named v) (pv_data v) base z CH ST) as [s R]; [|exact NM|rewrite R; eauto].
    apply (arcs_positive _ _ _ _ AR). intros d dawn dusk peak SD. apply drawn_positive; assumption.
  Qed.
  Lemma again_succeeds (a : pv_args Q) u z v base : az_shape a = None -> (az_noise a = None \/ az_noise a = Some "gaussian") ->
    pv_base v = Some base -> (forall c, In c base -> length c = 24%nat) -> (forall x, In x (concat base) -> 0 <= x) -> 0 <= az_std a ->
    (az_each a <> None -> pv_named v = true) -> exists s, sample_pv a u z v = (v, Ok s).
  Proof.
    intros A N B CH NN ST NM. rewrite (pv_stored a u z v base); [|unfold known_noises; rewrite A; destruct N as [-> | ->]; reflexivity|exact A|exact B].
    destruct (rest_succeeds a (pv_named v) (pv_data v) base z CH ST NN NM) as [s R]. rewrite R. eauto.
  Qed.

  (** Nothing is sampled at night. *)
  Lemma night_zero (a : pv_args Q) z l D good base c : arcs l D good base -> sampled_around a z base c ->
    forall d dawn dusk h, (d < D)%nat -> sunny (day_of_data l d) dawn dusk -> (h < 24)%nat -> (h <= dawn \/ dusk <= h)%nat ->
    exists x, nth_error c (24 * d + h) = Some x /\ x == 0.
  Proof.
    intros [_ AR] [_ SA] d dawn dusk h Ld S1 Lh N. destruct (AR d Ld) as [dawn' [dusk' [peak [S2 [_ H]]]]]. destruct (sunny_unique _ _ _ _ _ S1 S2) as [<- <-].
    destruct (H h Lh) as [v [V A]]. apply (arc_night _ _ _ _ _ A) in N. destruct (SA d h v Lh V) as [x [X E]]. exists x. split; [exact X|]. rewrite E.
    destruct (az_noise a); [assert (Z : v + az_std a * v * z d h == 0) by (rewrite N; ring)|assert (Z : v + 0 == 0) by (rewrite N; ring)]; rewrite Z; reflexivity.
  Qed.

  (** Moved all the way, a sample is the data. *)
  Lemma moved_all l c s : length c = length l -> moved_towards (Some 1) l c s -> Forall2 Qeq s l.
  Proof.
    intros L [LS H]. assert (G : forall i y, nth_error l i = Some y -> exists v, nth_error s i = Some v /\ v == y).
    { intros i y Y. destruct (nth_error c i) as [x|] eqn:X; [|apply nth_error_None in X; apply nth_error_Some_lt in Y; lia].
      destruct (H i x y X Y) as [v [V E]]. exists v. split; [exact V|]. rewrite E. ring. }
    assert (LE : length s = length l) by lia. clear H LS L c. revert s LE G. induction l as [|y l IH]; intros [|x s] LE G; try discriminate; constructor.
    - destruct (G 0%nat y eq_refl) as [v [V E]]. injection V as ->. exact E.
    - apply IH; [now injection LE|]. intros i w W. exact (G (S i) w W).
  Qed.

  (** A day without sun *)
  Lemma rmapM_seq_err {B} (f : nat -> res B) n cls : forall a k, (k < n)%nat -> (forall i, (a <= i < a + k)%nat -> exists y, f i = Ok y) -> raises cls (f (a + k)%nat) ->
    raises cls (rmapM f (seq a n)).
  Proof.
    induction n as [|n IH]; intros a k L H R; [lia|]. cbn [seq rmapM]. destruct k as [|k].
    - rewrite Nat.add_0_r in R. destruct R as [e [E C]]. rewrite E. exists e. split; [reflexivity|exact C].
    - destruct (H a ltac:(lia)) as [y Y]. rewrite Y. cbn [rbind]. destruct (IH (S a) k ltac:(lia)) as [e [E C]].
      + intros i I. apply H. lia.
      + replace (S a + k)%nat with (a + S k)%nat by lia. exact R.
      + rewrite E. exists e. split; [reflexivity|exact C].
  Qed.
  Lemma dark_day (a : pv_args Q) u z v days d : az_shape a = Some "uniform" -> (az_noise a = None \/ az_noise a = Some "gaussian") -> uniform u ->
    whole_days (pv_data v) days -> (d < days)%nat -> (forall k, (k < d)%nat -> exists dawn dusk, sunny (day_of_data (pv_data v) k) dawn dusk) ->
    (forall x, In x (day_of_data (pv_data v) d) -> x == 0) ->
    fst (sample_pv a u z v) = v /\ raises IndexError (snd (sample_pv a u z v)).
  Proof.
    intros A N U W L SN DK. rewrite (pv_drawn a u z v _ (known_uniform a A N) A).
    assert (R : raises IndexError (sample_parabola least most tri a (pv_data v) u)).
    { unfold sample_parabola. assert (E : ((length (pv_data v) + 23) / 24 = days)%nat).
      { unfold whole_days in W. rewrite W. pose proof (ceil_day days 0 ltac:(lia)) as C. cbn [Nat.eqb] in C. now rewrite Nat.add_0_r in C. }
      rewrite E. apply (rmapM_seq_err _ _ _ 0 d L).
      - intros i I. destruct (SN i ltac:(lia)) as [dawn [dusk S1]]. rewrite (sample_day_sunny _ _ _ _ _ _ _ _ _ S1). destruct (U i) as [U1 U2].
        destruct (peak_uniform least most tri a (pv_data v) i dawn dusk (u i) A U1 U2 S1) as [p [P _]]. rewrite P. eexists. reflexivity.
      - apply sample_day_dark; [|exact DK]. unfold day_of_data. rewrite firstn_length, skipn_length. unfold whole_days in W. lia. }
    destruct R as [e [E C]]. rewrite E. split; [reflexivity|]. exists e. split; [reflexivity|exact C].
  Qed.
End Whole.
