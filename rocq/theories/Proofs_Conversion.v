(** * Conversion to a modular microgrid: the modules *)

From Coq Require Import ZArith QArith Qabs Qminmax Bool String List Lia Lqa.
From Verif Require Import Num Py Space Logger Forecast Module Container Microgrid NonModular Conversion
  Proofs_Num Proofs_Logger Spec_Module Spec_Reach Proofs_Module Proofs_Ts Proofs_Any Proofs_Request
  Proofs_Battery Proofs_Genset Proofs_Props
  Spec_Microgrid Spec_Sane Proofs_Container Proofs_Run Proofs_Mgrid Proofs_Views Proofs_MgProps Proofs_MgProps2
  Proofs_Build Proofs_Sane Proofs_Rebuild Spec_NonModular Proofs_NonModular Spec_Conversion.
Import ListNotations.
Local Open Scope string_scope.
Local Open Scope list_scope.
Local Open Scope Q_scope.

Lemma column_single (l : list Q) : single_column (column_rows l).
Proof. unfold column_rows. apply Forall_forall. intros r I. apply in_map_iff in I. destruct I as (x & <- & _). reflexivity. Qed.
Lemma column_one (l : list Q) : one_column (column_rows l).
Proof. exact (column_single l). Qed.
Lemma column_map (f : Q -> Q) (l : list Q) : map (map f) (column_rows l) = map (fun x => [f x]) l.
Proof. unfold column_rows. rewrite map_map. reflexivity. Qed.
Lemma column_length (l : list Q) : length (column_rows l) = length l.
Proof. unfold column_rows. apply map_length. Qed.

Lemma no_user : ~ asks_user (FPOracle : fparam Q).
Proof. intros [f E]. discriminate. Qed.

(** ** One by one *)
Lemma load_made (re : bool) (g : nonmod Q) m : get_load_module g re = Ok m -> load_of re g m /\ mod_ok m /\ built m.
Proof.
  unfold get_load_module. intros E.
  destruct (new_load_ok _ _ _ _ _ _ _ _ _ (column_one _) E) as (t & M & OK & _ & R & F & H & FF & _).
  split; [|split; [exact OK|eapply built_load; [apply column_single|exact E]]].
  rewrite column_map in R. rewrite column_length in F. cbn in F, H. unfold load_of, brand_new, foresees, series, horizon, final_step.
  rewrite M. cbn. rewrite R, F, H. conj; auto.
  - exists t. reflexivity.
  - rewrite map_length. reflexivity.
  - exists t. split; [reflexivity|]. inversion FF; reflexivity.
Qed.
Lemma pv_made (re : bool) (g : nonmod Q) m : get_pv_module g re = Ok m -> pv_of re g m /\ mod_ok m /\ built m.
Proof.
  unfold get_pv_module. intros E.
  destruct (new_renewable_ok _ _ _ _ _ _ _ _ _ _ (column_one _) E) as (t & lo & hi & M & OK & _ & R & F & H & FF & _).
  split; [|split; [exact OK|eapply built_renewable; [apply column_single|exact E]]].
  rewrite column_map in R. rewrite column_length in F. cbn in F, H. unfold pv_of, brand_new, foresees, series, horizon, final_step.
  rewrite M. cbn. rewrite R, F, H. conj; auto.
  - exists t. reflexivity.
  - rewrite map_length. reflexivity.
  - exists t. split; [reflexivity|]. inversion FF; reflexivity.
Qed.
Lemma battery_made (re : bool) (g : nonmod Q) m : get_battery_module g re = Ok m -> battery_of re g m /\ mod_ok m /\ built m.
Proof.
  unfold get_battery_module. intros E.
  repeat match goal with E : rbind _ _ = Ok _ |- _ => apply rbind_ok in E; destruct E as (? & ? & E) end.
  repeat match goal with E : dfind _ _ = Ok _ |- _ => apply dfind_ok in E end.
  match goal with E : num _ = Ok _ |- _ => apply num_ok in E end.
  split; [|split; [eapply new_battery_good; exact E|eapply built_battery; exact E]].
  unfold new_battery in E. destruct (negb _); [discriminate|]. destruct (neqb _ _); [discriminate|].
  cbn [init_battery rbind] in E. cbn in E.
  match goal with E : ?X = ?Y |- _ => 
    match X with Ok ?y => injection E as E end end.
  subst m. split; [unfold brand_new; cbn; auto|]. do 4 eexists. split; [reflexivity|]. cbn. unfold parameter. conj; eauto.
Qed.
Lemma genset_made (re : bool) (g : nonmod Q) m : get_genset_module g re = Ok m -> genset_of re g m /\ mod_ok m /\ built m.
Proof.
  unfold get_genset_module. intros E.
  repeat match goal with E : rbind _ _ = Ok _ |- _ => apply rbind_ok in E; destruct E as (? & ? & E) end.
  repeat match goal with E : dfind _ _ = Ok _ |- _ => apply dfind_ok in E end.
  split; [|split; [eapply new_genset_good; exact E|eapply built_genset; exact E]].
  unfold new_genset in E. destruct (nltb _ _); [discriminate|]. cbn in E. injection E as E.
  subst m. split; [unfold brand_new; cbn; auto|]. split; [reflexivity|].
  do 5 eexists. split; [reflexivity|]. cbn. unfold parameter. conj; eauto.
Qed.
Lemma four_rows (a b c d : list Q) rows : four_columns a b c d = Ok rows ->
  length b = length a /\ length c = length a /\ length d = length a /\ length rows = length a
  /\ Forall (fun r => length r = 4%nat) rows
  /\ forall k w x y z, nth_error rows k = Some [w; x; y; z] <->
       nth_error a k = Some w /\ nth_error b k = Some x /\ nth_error c k = Some y /\ nth_error d k = Some z.
Proof.
  unfold four_columns. destruct (_ && _) eqn:B; [|discriminate].
  apply andb_true_iff in B. destruct B as [B1 B3]. apply andb_true_iff in B1. destruct B1 as [B1 B2].
  apply Nat.eqb_eq in B1, B2, B3. intros E.
  apply (f_equal (fun x => match x with Ok y => y | Err _ => [] end)) in E. subst rows.
  split; [auto|]. split; [auto|]. split; [auto|].
  split. { rewrite map_length, !combine_length. lia. }
  split. { apply Forall_forall. intros r I. apply in_map_iff in I. destruct I as (p & <- & _). reflexivity. }
  revert b c d B1 B2 B3. induction a as [|w0 a IH]; intros b c d B1 B2 B3 k w x y z;
    destruct b as [|x0 b]; try discriminate B1; destruct c as [|y0 c]; try discriminate B2; destruct d as [|z0 d]; try discriminate B3.
  - destruct k; simpl; (split; [intros X; discriminate X|intros (X & _); discriminate X]).
  - destruct k; simpl.
    + split; [intros X; injection X as <- <- <- <-; auto|intros (X & Y & Z & W); congruence].
    + apply IH; simpl in *; lia.
Qed.
Lemma four_status (rows : list (list Q)) : Forall (fun r => length r = 4%nat) rows -> with_status rows = rows.
Proof.
  intros F. unfold with_status. rewrite <- (map_id rows) at 2. apply map_ext_in. intros r I.
  rewrite Forall_forall in F. rewrite (F r I). reflexivity.
Qed.
Lemma grid_made (re : bool) (g : nonmod Q) m : get_grid_module g re = Ok m -> grid_of re g m /\ mod_ok m /\ built m.
Proof.
  unfold get_grid_module. intros E.
  repeat match goal with E : rbind _ _ = Ok _ |- _ => apply rbind_ok in E; destruct E as (? & ? & E) end.
  repeat match goal with E : dfind _ _ = Ok _ |- _ => apply dfind_ok in E end.
  match goal with E : four_columns _ _ _ _ = Ok _ |- _ => destruct (four_rows _ _ _ _ _ E) as (L1 & L2 & L3 & L & W & N) end.
  destruct (new_grid_ok _ _ _ _ _ _ _ _ _ _ _ _ _ E) as (t & M & OK & R & F & HH & FF).
  split; [|split; [exact OK|eapply built_grid; exact E]].
  rewrite (four_status _ W) in R. cbn in F, HH. unfold grid_of, brand_new, foresees, series, horizon, final_step.
  rewrite M. cbn. rewrite R, F, HH. conj; auto.
  - do 2 eexists. split; [reflexivity|]. cbn. unfold parameter. auto.
  - exists t. split; [reflexivity|]. inversion FF; reflexivity.
Qed.
Lemma unbalanced_made (re : bool) (g : nonmod Q) m : get_unbalanced_energy_module g re = Ok m -> unbalanced_of re g m /\ mod_ok m /\ built m.
Proof.
  unfold get_unbalanced_energy_module. intros E.
  repeat match goal with E : rbind _ _ = Ok _ |- _ => apply rbind_ok in E; destruct E as (? & ? & E) end.
  repeat match goal with E : dfind _ _ = Ok _ |- _ => apply dfind_ok in E end.
  injection E as <-. split; [|split; [apply built_ok; constructor|constructor]].
  split; [unfold brand_new; cbn; auto|]. eexists. split; [reflexivity|]. cbn. auto.
Qed.

(** ** All of them *)
Definition part_of (b : bool) (nm : string) (r : res (module Q)) (l : list (mdef Q)) : Prop :=
  if b then exists m, r = Ok m /\ l = [(Some nm, m)] else l = [].
Lemma part_ok (b : bool) nm (r : res (module Q)) l :
  (if b then rmap (fun m : module Q => [(Some nm, m)]) r else Ok []) = Ok l <-> part_of b nm r l.
Proof.
  unfold part_of. destruct b.
  - destruct r as [m|e]; simpl; split.
    + intros E. injection E as <-. eauto.
    + intros (m' & E & ->). congruence.
    + discriminate.
    + intros (m' & E & ->). discriminate.
  - split; [intros E; injection E as <-; reflexivity|intros ->; reflexivity].
Qed.

Lemma modular_parts re (g : nonmod Q) ds : modular_list re g = Ok ds <->
  exists load unb pv bat gen gri, get_load_module g re = Ok load /\ get_unbalanced_energy_module g re = Ok unb
    /\ part_of (has_pv (nm_arch g)) "PV" (get_pv_module g re) pv
    /\ part_of (has_battery (nm_arch g)) "battery" (get_battery_module g re) bat
    /\ part_of (has_genset (nm_arch g)) "genset" (get_genset_module g re) gen
    /\ part_of (has_grid (nm_arch g)) "grid" (get_grid_module g re) gri
    /\ ds = [(Some "load", load); (Some "unbalanced_energy", unb)] ++ pv ++ bat ++ gen ++ gri.
Proof.
  unfold modular_list. split.
  - intros E.
    apply rbind_ok in E; destruct E as (load & L & E). apply rbind_ok in E; destruct E as (unb & U & E). cbv zeta in E.
    apply rbind_ok in E; destruct E as (pv & P & E). apply rbind_ok in E; destruct E as (bat & B & E).
    apply rbind_ok in E; destruct E as (gen & G & E). apply rbind_ok in E; destruct E as (gri & R & E).
    apply part_ok in P, B, G, R. injection E as <-. exists load, unb, pv, bat, gen, gri. auto 10.
  - intros (load & unb & pv & bat & gen & gri & L & U & P & B & G & R & ->).
    rewrite L, U. cbn [rbind]. cbv zeta. unfold part_of in *.
    destruct (has_pv (nm_arch g)), (has_battery (nm_arch g)), (has_genset (nm_arch g)), (has_grid (nm_arch g));
      repeat match goal with H : exists m, _ |- _ => destruct H as (? & -> & ->) end; subst; reflexivity.
Qed.

(** The modules of the list, by name *)
Definition converted (re : bool) (g : nonmod Q) (d : mdef Q) : Prop :=
  (d = (Some "load", snd d) /\ load_of re g (snd d) /\ get_load_module g re = Ok (snd d))
  \/ (d = (Some "unbalanced_energy", snd d) /\ unbalanced_of re g (snd d) /\ get_unbalanced_energy_module g re = Ok (snd d))
  \/ (has_pv (nm_arch g) = true /\ d = (Some "PV", snd d) /\ pv_of re g (snd d) /\ get_pv_module g re = Ok (snd d))
  \/ (has_battery (nm_arch g) = true /\ d = (Some "battery", snd d) /\ battery_of re g (snd d) /\ get_battery_module g re = Ok (snd d))
  \/ (has_genset (nm_arch g) = true /\ d = (Some "genset", snd d) /\ genset_of re g (snd d) /\ get_genset_module g re = Ok (snd d))
  \/ (has_grid (nm_arch g) = true /\ d = (Some "grid", snd d) /\ grid_of re g (snd d) /\ get_grid_module g re = Ok (snd d)).

Lemma part_in b nm r l (d : mdef Q) : part_of b nm r l -> In d l -> b = true /\ d = (Some nm, snd d) /\ r = Ok (snd d).
Proof. unfold part_of. destruct b; [intros (m & -> & ->) [<-|[]]; auto|intros -> []]. Qed.
Lemma modular_converted re (g : nonmod Q) ds : modular_list re g = Ok ds ->
  Forall (fun d => converted re g d /\ mod_ok (snd d) /\ built (snd d)) ds.
Proof.
  intros E. apply modular_parts in E. destruct E as (load & unb & pv & bat & gen & gri & L & U & P & B & G & R & ->).
  destruct (load_made _ _ _ L) as (L1 & L2 & L3). destruct (unbalanced_made _ _ _ U) as (U1 & U2 & U3).
  unfold converted. apply Forall_forall. intros d I. rewrite !in_app_iff in I.
  destruct I as [[<-|[<-|[]]]|[I|[I|[I|I]]]]; [split; cbn [snd]; auto 10|split; cbn [snd]; auto 10| | | |].
  - destruct (part_in _ _ _ _ _ P I) as (X & Y & Z). destruct (pv_made _ _ _ Z) as (P1 & P2 & P3). auto 10.
  - destruct (part_in _ _ _ _ _ B I) as (X & Y & Z). destruct (battery_made _ _ _ Z) as (P1 & P2 & P3). auto 10.
  - destruct (part_in _ _ _ _ _ G I) as (X & Y & Z). destruct (genset_made _ _ _ Z) as (P1 & P2 & P3). auto 10.
  - destruct (part_in _ _ _ _ _ R I) as (X & Y & Z). destruct (grid_made _ _ _ Z) as (P1 & P2 & P3). auto 10.
Qed.

Lemma modular_defs re (g : nonmod Q) ds : modular_list re g = Ok ds ->
  NoDup (map mdef_name ds)
  /\ (exists m, defs_of "load" ds = [(Some "load", m)])
  /\ (exists m, defs_of "unbalanced_energy" ds = [(Some "unbalanced_energy", m)])
  /\ (if has_pv (nm_arch g) then exists m, defs_of "PV" ds = [(Some "PV", m)] else defs_of "PV" ds = [])
  /\ (if has_battery (nm_arch g) then exists m, defs_of "battery" ds = [(Some "battery", m)] else defs_of "battery" ds = [])
  /\ (if has_genset (nm_arch g) then exists m, defs_of "genset" ds = [(Some "genset", m)] else defs_of "genset" ds = [])
  /\ (if has_grid (nm_arch g) then exists m, defs_of "grid" ds = [(Some "grid", m)] else defs_of "grid" ds = [])
  /\ (forall nm, ~ In nm ["load"; "unbalanced_energy"; "PV"; "battery"; "genset"; "grid"] -> defs_of nm ds = []).
Proof.
  intros E. apply modular_parts in E. destruct E as (load & unb & pv & bat & gen & gri & L & U & P & B & G & R & ->).
  clear L U. unfold part_of in *.
  assert (O : forall nm (l : list (mdef Q)), (forall d, In d l -> mdef_name d <> nm) -> defs_of nm l = []).
  { intros nm l F. unfold defs_of. induction l as [|d l IH]; [reflexivity|]. cbn [filter].
    destruct (String.eqb nm (mdef_name d)) eqn:X; [|apply IH; intros; apply F; right; assumption].
    apply String.eqb_eq in X. exfalso. apply (F d); [left; reflexivity|auto]. }
  destruct (has_pv (nm_arch g)), (has_battery (nm_arch g)), (has_genset (nm_arch g)), (has_grid (nm_arch g));
    repeat match goal with H : exists m, _ |- _ => destruct H as (? & _ & ->) end; subst;
    (split; [cbn; repeat constructor; cbn; intuition discriminate|]);
    repeat (split; [cbn; try (eexists; reflexivity); reflexivity|]);
    intros nm N; apply O; intros d I Q; apply N; rewrite <- Q; cbn in I;
    repeat (destruct I as [<-|I]; [cbn; tauto|]); destruct I.
Qed.

Lemma nodup_sep (ds : list (mdef Q)) : NoDup (map mdef_name ds) -> names_separate ds.
Proof.
  intros ND d d' I I' E. f_equal. induction ds as [|x ds IH]; [destruct I|]. inversion ND as [|? ? N ND']; subst.
  destruct I as [<-|I], I' as [<-|I']; auto.
  - exfalso. apply N. apply in_map_iff. exists d'. auto.
  - exfalso. apply N. apply in_map_iff. exists d. auto.
Qed.

Lemma alike_refl (E : list (mdef Q)) : Forall2 alike E E.
Proof. induction E; constructor; auto. split; reflexivity. Qed.

Lemma new_named (ds : list (mdef Q)) l o sh (mg : mgrid Q) :
  Forall (fun d => mod_ok (snd d)) ds -> names_separate ds ->
  new_microgrid ds false l o sh None = Ok mg ->
  forall nm, named nm mg = number nm 0 (map snd (defs_of nm ds)).
Proof.
  intros OK SEP E nm. destruct (new_microgrid_inv _ _ _ _ _ _ _ E) as (c & ms & G & C & M & _).
  apply (alike_named ds ds OK SEP (alike_refl ds) c ms G mg nm C M).
Qed.

Lemma brand_name re m nn : brand_new re m -> brand_new re (set_name m nn).
Proof. destruct m. exact (fun x => x). Qed.

Lemma modular_copied re (g : nonmod Q) mg : to_modular re g = Ok mg -> modular_copy re g mg.
Proof.
  unfold to_modular. intros E. apply rbind_ok in E. destruct E as (ds & ML & E).
  pose proof (modular_converted _ _ _ ML) as CV. destruct (modular_defs _ _ _ ML) as (ND & D1 & D2 & D3 & D4 & D5 & D6 & D7).
  assert (OK : Forall (fun d => mod_ok (snd d)) ds) by (eapply Forall_impl; [|exact CV]; intros d (_ & O & _); exact O).
  pose proof (new_named _ _ _ _ _ OK (nodup_sep _ ND) E) as N.
  assert (X : forall nm m, defs_of nm ds = [(Some nm, m)] -> named nm mg = [set_name m (Some nm, Some 0%nat)] /\ converted re g (Some nm, m)).
  { intros nm m D. rewrite N, D. split; [reflexivity|]. rewrite Forall_forall in CV. apply CV.
    assert (I : In (Some nm, m) (defs_of nm ds)) by (rewrite D; left; reflexivity).
    unfold defs_of in I. apply filter_In in I. tauto. }
  assert (Y : forall nm, defs_of nm ds = [] -> named nm mg = []) by (intros nm D; rewrite N, D; reflexivity).
  assert (NMS : forall (a b : string) (m : module Q), (Some a, m) = (Some b, m) -> a = b) by (intros a b m Q; congruence).
  constructor.
  - destruct D1 as [m D]. destruct (X _ _ D) as [Z C]. eexists. split; [exact Z|].
    unfold converted in C. cbn [snd] in C.
    destruct C as [(_ & C & _)|[(Q & _)|[(_ & Q & _)|[(_ & Q & _)|[(_ & Q & _)|(_ & Q & _)]]]]]; try discriminate (NMS _ _ _ Q).
    destruct m. exact C.
  - destruct D2 as [m D]. destruct (X _ _ D) as [Z C]. eexists. split; [exact Z|].
    unfold converted in C. cbn [snd] in C.
    destruct C as [(Q & _)|[(_ & C & _)|[(_ & Q & _)|[(_ & Q & _)|[(_ & Q & _)|(_ & Q & _)]]]]]; try discriminate (NMS _ _ _ Q).
    destruct m. exact C.
  - unfold if_any. destruct (has_pv (nm_arch g)); [|auto]. destruct D3 as [m D]. destruct (X _ _ D) as [Z C]. eexists. split; [exact Z|].
    unfold converted in C. cbn [snd] in C.
    destruct C as [(Q & _)|[(Q & _)|[(_ & _ & C & _)|[(_ & Q & _)|[(_ & Q & _)|(_ & Q & _)]]]]]; try discriminate (NMS _ _ _ Q).
    destruct m. exact C.
  - unfold if_any. destruct (has_battery (nm_arch g)); [|auto]. destruct D4 as [m D]. destruct (X _ _ D) as [Z C]. eexists. split; [exact Z|].
    unfold converted in C. cbn [snd] in C.
    destruct C as [(Q & _)|[(Q & _)|[(_ & Q & _)|[(_ & _ & C & _)|[(_ & Q & _)|(_ & Q & _)]]]]]; try discriminate (NMS _ _ _ Q).
    destruct m. exact C.
  - unfold if_any. destruct (has_genset (nm_arch g)); [|auto]. destruct D5 as [m D]. destruct (X _ _ D) as [Z C]. eexists. split; [exact Z|].
    unfold converted in C. cbn [snd] in C.
    destruct C as [(Q & _)|[(Q & _)|[(_ & Q & _)|[(_ & Q & _)|[(_ & _ & C & _)|(_ & Q & _)]]]]]; try discriminate (NMS _ _ _ Q).
    destruct m. exact C.
  - unfold if_any. destruct (has_grid (nm_arch g)); [|auto]. destruct D6 as [m D]. destruct (X _ _ D) as [Z C]. eexists. split; [exact Z|].
    unfold converted in C. cbn [snd] in C.
    destruct C as [(Q & _)|[(Q & _)|[(_ & Q & _)|[(_ & Q & _)|[(_ & Q & _)|(_ & _ & C & _)]]]]]; try discriminate (NMS _ _ _ Q).
    destruct m. exact C.
  - intros nm I. apply Y. apply D7. exact I.
Qed.

(** ** Sensible data are accepted *)
Lemma rectangular_all n (rows : list (list Q)) : Forall (fun r => length r = n) rows -> rectangular rows = true.
Proof.
  intros F. unfold rectangular. destruct rows as [|r rows]; [reflexivity|]. apply forallb_forall.
  intros x I. rewrite Forall_forall in F. rewrite (F x I), (F r (or_introl eq_refl)). apply Nat.eqb_refl.
Qed.
Lemma new_grid_accepts mi me rows fp h inc initial final cc re gt rnd :
  0 <= mi -> 0 <= me -> rows <> [] -> Forall (fun r => length r = 4%nat) rows -> all_nonneg rows ->
  Forall (fun r => exists s, nth_error r 3 = Some s /\ (s == 0 \/ s == 1)) rows -> ~ asks_user fp ->
  exists m : module Q, new_grid mi me rows fp h inc initial final cc re gt rnd = Ok m.
Proof.
  intros M1 M2 NE W NN ST NU. unfold new_grid.
  assert (RE := rectangular_all _ _ W).
  assert (GC : grid_check mi me rows = Ok rows).
  { unfold grid_check. unum. rewrite (proj2 (Qltb_ge _ _) M1), (proj2 (Qltb_ge _ _) M2).
    destruct rows as [|r0 rows0] eqn:R; [congruence|]. rewrite <- R in *.
    assert (L0 : length r0 = 4%nat) by (rewrite Forall_forall in W; apply W; rewrite R; left; reflexivity).
    rewrite L0. cbn [Nat.eqb orb negb]. rewrite RE. cbn [negb andb].
    match goal with |- context [forallb ?f rows] => assert (B : forallb f rows = true) end.
    { apply forallb_forall. intros r I. rewrite Forall_forall in ST. destruct (ST r I) as (s & -> & S01).
      destruct S01 as [S01|S01]; apply Qeq_bool_iff in S01; rewrite S01; [reflexivity|apply orb_true_r]. }
    rewrite B. cbn [negb].
    match goal with |- context [existsb ?f rows] => assert (B2 : existsb f rows = false) end.
    { apply not_true_is_false. intros X. apply existsb_exists in X. destruct X as (r & I & X).
      apply existsb_exists in X. destruct X as (x & J & X). apply Qltb_lt in X.
      unfold all_nonneg in NN. rewrite Forall_forall in NN. specialize (NN r I). rewrite Forall_forall in NN. specialize (NN x J). lra. }
    rewrite B2. reflexivity. }
  rewrite GC. cbn [rbind].
  assert (ST2 : set_time_series true true rows = Ok rows) by (unfold set_time_series; rewrite RE; reflexivity).
  assert (CO : forall j, (j < 4)%nat -> exists x l, ts_column j rows = x :: l).
  { intros j J. destruct rows as [|r rows0]; [congruence|]. inversion W as [|? ? L _]; subst.
    unfold ts_column. cbn [map concat]. destruct (nth_error r j) as [x|] eqn:N.
    - exists x, (concat (map (fun r => match nth_error r j with Some x => [x] | None => [] end) rows0)). reflexivity.
    - apply nth_error_None in N. lia. }
  assert (BD : exists b, grid_bounds 4 rows = Ok b).
  { unfold grid_bounds. cbn [seq rmapM]. 
    destruct (CO 0%nat) as (x0 & l0 & ->); [lia|]. destruct (CO 1%nat) as (x1 & l1 & ->); [lia|].
    destruct (CO 2%nat) as (x2 & l2 & ->); [lia|]. destruct (CO 3%nat) as (x3 & l3 & ->); [lia|].
    cbn. eexists. reflexivity. }
  destruct BD as [b B].
  destruct (grid_bounds_ok 4 rows b) as (X1 & X2 & X3); [lia|exact W|exact B|].
  eapply new_ts_accepts; eauto. simpl. lia.
Qed.

Lemma nonneg_column (l : list Q) : Forall (Qle 0) l -> all_nonneg (column_rows l).
Proof.
  intros F. unfold all_nonneg, column_rows. apply Forall_forall. intros r I. apply in_map_iff in I.
  destruct I as (x & <- & I). constructor; [|constructor]. rewrite Forall_forall in F. auto.
Qed.
Lemma nonempty_column (l : list Q) : (0 < length l)%nat -> column_rows l <> [].
Proof. destruct l; simpl; [lia|discriminate]. Qed.

Section Sensible.
Variables (re : bool) (g : nonmod Q).
Hypothesis PL : plausible g.

Lemma load_accepted : exists m, get_load_module g re = Ok m /\ sane m.
Proof.
  destruct PL as [P1 P2 _ _ _ _ _].
  destruct (C16_accepts_lemma (column_rows (nm_load_ts g)) FPOracle (horizon_of g) false 0 (-1) re "" no_rand
    (column_single _) (nonempty_column _ P1) (or_introl (nonneg_column _ P2)) no_user) as [(m & E) _].
  exists m. split; [exact E|]. eapply sane_load; [apply column_single|apply no_user|exact E].
Qed.
Lemma pv_accepted : has_pv (nm_arch g) = true -> exists m, get_pv_module g re = Ok m /\ sane m.
Proof.
  intros H. destruct PL as [P1 P2 P3 _ _ _ _]. destruct (P3 H) as [L N].
  assert (NE : (0 < length (nm_pv_ts g))%nat) by (rewrite L; exact P1).
  destruct (C16_accepts_lemma (column_rows (nm_pv_ts g)) FPOracle (horizon_of g) false 0 (-1) re "renewable_used" no_rand
    (column_single _) (nonempty_column _ NE) (or_introl (nonneg_column _ N)) no_user) as [_ (m & E)].
  exists m. split; [exact E|]. eapply sane_renewable; [apply column_single|apply no_user|exact E].
Qed.
Lemma unbalanced_accepted : exists m, get_unbalanced_energy_module g re = Ok m /\ sane m.
Proof.
  destruct PL as [_ _ _ (l & o & P1 & P2 & P3 & P4) _ _ _].
  unfold get_unbalanced_energy_module. apply dfind_ok in P1, P2. rewrite P1, P2. cbn [rbind].
  eexists. split; [reflexivity|]. apply sane_unbalanced; assumption.
Qed.
Lemma battery_accepted : has_battery (nm_arch g) = true -> exists m, get_battery_module g re = Ok m /\ sane m.
Proof.
  intros H. destruct PL as [_ _ _ _ P _ _].
  destruct (P H) as (cap & smin & pc & pd & eff & cost & soc & A1 & A2 & A3 & A4 & A5 & A6 & A7 & B1 & B2 & B3 & B4 & B5 & B6 & B7).
  unfold get_battery_module. apply dfind_ok in A1, A2, A3, A4, A5, A6. apply num_ok in A7.
  rewrite A1, A2, A3, A4, A5, A6. cbn [rbind]. rewrite A7. cbn [rbind].
  assert (E : exists m, new_battery (nmul cap smin) cap pc pd eff cost None None (Some soc) 0 re = Ok m /\ charge m = soc * cap).
  { unfold new_battery. unum. rewrite (proj2 (Qltb_lt _ _) B2), (proj2 (Qle_bool_iff _ _) B3). cbn [andb negb].
    destruct (Qeq_bool cap 0) eqn:Z; [apply Qeq_bool_iff in Z; lra|]. cbn. eexists. split; reflexivity. }
  destruct E as (m & E & C). exists m. split; [exact E|]. eapply sane_battery; [exact E| | |assumption|assumption].
  - unum. rewrite C. rewrite (Qmult_comm cap). apply Qmult_le_compat_r; [assumption|apply Qlt_le_weak; exact B1].
  - rewrite C. rewrite <- (Qmult_1_l cap) at 2. apply Qmult_le_compat_r; [assumption|apply Qlt_le_weak; exact B1].
Qed.
Lemma genset_accepted : has_genset (nm_arch g) = true -> exists m, get_genset_module g re = Ok m /\ sane m.
Proof.
  intros H. destruct PL as [_ _ _ _ _ P _].
  destruct (P H) as (rated & pmin & pmax & fuel & co2 & cost & A1 & A2 & A3 & A4 & A5 & A6 & B1 & B2 & B3).
  unfold get_genset_module. apply dfind_ok in A1, A2, A3, A4, A5, A6.
  rewrite A1, A2, A3, A4, A5, A6. cbn [rbind].
  assert (E : exists m, new_genset (nmul pmin rated) (nmul pmax rated) (FuelLin fuel) co2 cost 0 0 true true 0 re "genset_production" = Ok m).
  { unfold new_genset. unum. assert (X : pmin * rated <= pmax * rated) by (apply Qmult_le_compat_r; assumption).
    rewrite (proj2 (Qltb_ge _ _) X). eexists. reflexivity. }
  destruct E as (m & E). exists m. split; [exact E|]. eapply sane_genset; [| | |exact E]; [lia|lia|]. unum. apply Qmult_le_0_compat; assumption.
Qed.
Lemma grid_accepted : has_grid (nm_arch g) = true -> exists m, get_grid_module g re = Ok m /\ sane m.
Proof.
  intros H. destruct PL as [P1 _ _ _ _ _ P].
  destruct (P H) as (mi & me & cost & A1 & A2 & A3 & B1 & B2 & F & ST).
  rewrite Forall_forall in F.
  destruct (F (nm_import_ts g)) as [L1 N1]; [simpl; tauto|]. destruct (F (nm_export_ts g)) as [L2 N2]; [simpl; tauto|].
  destruct (F (nm_co2_ts g)) as [L3 N3]; [simpl; tauto|]. destruct (F (nm_status_ts g)) as [L4 N4]; [simpl; tauto|].
  unfold get_grid_module. apply dfind_ok in A1, A2, A3. rewrite A1, A2, A3. cbn [rbind].
  destruct (four_columns (nm_import_ts g) (nm_export_ts g) (nm_co2_ts g) (nm_status_ts g)) as [rows|e] eqn:FC.
  2:{ unfold four_columns in FC. rewrite L1, L2, L3, L4, Nat.eqb_refl in FC. discriminate. }
  destruct (four_rows _ _ _ _ _ FC) as (_ & _ & _ & L & W & N). cbn [rbind].
  assert (RW : forall r, In r rows -> exists w x y z, r = [w; x; y; z] /\ In w (nm_import_ts g) /\ In x (nm_export_ts g)
     /\ In y (nm_co2_ts g) /\ In z (nm_status_ts g)).
  { intros r I. rewrite Forall_forall in W. pose proof (W r I) as LR. apply In_nth_error in I. destruct I as [k K].
    destruct r as [|w [|x [|y [|z [|]]]]]; try discriminate LR. exists w, x, y, z. split; [reflexivity|].
    apply N in K. destruct K as (K1 & K2 & K3 & K4). conj; eapply nth_error_In; eassumption. }
  assert (E : exists m : module Q, new_grid mi me rows FPOracle (horizon_of g) false 0 (-1) cost re Controllable no_rand = Ok m).
  { apply new_grid_accepts; auto using no_user.
    - intros ->. simpl in L. lia.
    - unfold all_nonneg. apply Forall_forall. intros r I. destruct (RW r I) as (w & x & y & z & -> & I1 & I2 & I3 & I4).
      rewrite Forall_forall in N1, N2, N3, N4. repeat constructor; auto.
    - apply Forall_forall. intros r I. destruct (RW r I) as (w & x & y & z & -> & I1 & I2 & I3 & I4).
      exists z. split; [reflexivity|]. rewrite Forall_forall in ST. auto. }
  destruct E as (m & E). exists m. split; [exact E|]. eapply sane_grid; [|apply no_user|exact E]. discriminate.
Qed.

Lemma list_accepted : exists ds, modular_list re g = Ok ds.
Proof.
  destruct load_accepted as (load & L & _). destruct unbalanced_accepted as (unb & U & _).
  assert (X : forall b nm (r : res (module Q)), (b = true -> exists m, r = Ok m /\ sane m) -> exists l, part_of b nm r l).
  { intros [] nm r P; unfold part_of; [destruct (P eq_refl) as (m & -> & _); eauto|eauto]. }
  destruct (X _ "PV" _ pv_accepted) as [pv P]. destruct (X _ "battery" _ battery_accepted) as [bat B].
  destruct (X _ "genset" _ genset_accepted) as [gen G]. destruct (X _ "grid" _ grid_accepted) as [gri R].
  eexists. apply modular_parts. exists load, unb, pv, bat, gen, gri. auto 10.
Qed.
Lemma list_sane ds : modular_list re g = Ok ds -> Forall (fun d => sane (snd d)) ds.
Proof.
  intros E. eapply Forall_impl; [|exact (modular_converted _ _ _ E)]. intros d [C _].
  destruct load_accepted as (m1 & L1 & S1). destruct unbalanced_accepted as (m2 & L2 & S2).
  destruct C as [(_ & _ & X)|[(_ & _ & X)|[(H & _ & _ & X)|[(H & _ & _ & X)|[(H & _ & _ & X)|(H & _ & _ & X)]]]]].
  - congruence.
  - congruence.
  - destruct (pv_accepted H) as (m & Y & Z). congruence.
  - destruct (battery_accepted H) as (m & Y & Z). congruence.
  - destruct (genset_accepted H) as (m & Y & Z). congruence.
  - destruct (grid_accepted H) as (m & Y & Z). congruence.
Qed.
Lemma list_finals ds : modular_list re g = Ok ds ->
  (forall d, In d ds -> m_init (snd d) = 0%Z /\ m_cur (snd d) = 0%Z /\ m_raise (snd d) = re)
  /\ (forall d x, In d ds -> final_step (snd d) = Some x -> x = Z.of_nat (length (nm_load_ts g)))
  /\ exists d, In d ds /\ final_step (snd d) <> None.
Proof.
  intros E. pose proof (modular_converted _ _ _ E) as CV. rewrite Forall_forall in CV.
  conj.
  - intros d I. destruct (CV d I) as [C _]. unfold brand_new in C.
    destruct C as [(_ & (B & _) & _)|[(_ & (B & _) & _)|[(_ & _ & (B & _) & _)|[(_ & _ & (B & _) & _)|[(_ & _ & (B & _) & _)|(_ & _ & (B & _) & _)]]]]];
      destruct B as (B1 & B2 & _ & B3); auto.
  - intros d x I F. destruct (CV d I) as [C _].
    destruct C as [(_ & C & _)|[(_ & C & _)|[(H & _ & C & _)|[(_ & _ & C & _)|[(_ & _ & C & _)|(H & _ & C & _)]]]]].
    + destruct C as (_ & _ & S & _ & F' & _). rewrite F' in F. injection F as <-. rewrite S, map_length. reflexivity.
    + destruct C as (_ & u & K & _). unfold final_step in F. rewrite K in F. discriminate.
    + destruct C as (_ & _ & _ & S & _ & F' & _). rewrite F' in F. injection F as <-. rewrite S, map_length.
      f_equal. apply (pl_pv _ PL H).
    + destruct C as (_ & b & ? & ? & ? & K & _). unfold final_step in F. rewrite K in F. discriminate.
    + destruct C as (_ & _ & s & ? & ? & ? & ? & K & _). unfold final_step in F. rewrite K in F. discriminate.
    + destruct C as (_ & _ & L & _ & _ & F' & _). rewrite F' in F. injection F as <-. rewrite L.
      f_equal. destruct (pl_grid _ PL H) as (? & ? & ? & _ & _ & _ & _ & _ & FF & _). inversion FF; subst. tauto.
  - apply modular_parts in E. destruct E as (load & unb & pv & bat & gen & gri & L & _ & _ & _ & _ & _ & ->).
    exists (Some "load", load). split; [left; reflexivity|]. destruct (load_made _ _ _ L) as [(_ & _ & _ & _ & F & _) _].
    cbn [snd]. rewrite F. discriminate.
Qed.
Lemma modular_accepted : exists mg, to_modular re g = Ok mg.
Proof.
  destruct list_accepted as [ds E]. unfold to_modular. rewrite E. cbn [rbind].
  destruct (list_finals _ E) as (F1 & F2 & F3). pose proof (modular_converted _ _ _ E) as CV.
  destruct (rebuild ds ds n0 n0 None 0%Z (Z.of_nat (length (nm_load_ts g)))) as (mg & M & _).
  - eapply Forall_impl; [|exact CV]. intros d (_ & O & _); exact O.
  - apply nodup_sep. apply (modular_defs _ _ _ E).
  - apply alike_refl.
  - intros d I. apply F1. exact I.
  - exact F2.
  - exact F3.
  - exists mg. exact M.
Qed.
End Sensible.

(** ** Nothing else matters *)
Lemma modular_only_data re (g g' : nonmod Q) :
  nm_arch g' = nm_arch g -> nm_par g' = nm_par g -> nm_horizon g' = nm_horizon g ->
  nm_load_ts g' = nm_load_ts g -> nm_pv_ts g' = nm_pv_ts g -> nm_status_ts g' = nm_status_ts g ->
  nm_import_ts g' = nm_import_ts g -> nm_export_ts g' = nm_export_ts g -> nm_co2_ts g' = nm_co2_ts g ->
  bv_soc (nm_battery g') = bv_soc (nm_battery g) -> to_modular re g' = to_modular re g.
Proof.
  intros E1 E2 E3 E4 E5 E6 E7 E8 E9 E10.
  unfold to_modular, modular_list, get_load_module, get_pv_module, get_battery_module, get_genset_module, get_grid_module,
    get_unbalanced_energy_module, horizon_of.
  rewrite E1, E2, E3, E4, E5, E6, E7, E8, E9, E10. reflexivity.
Qed.
