(** * The non-modular copy of a microgrid *)

From Coq Require Import ZArith QArith Qabs Qminmax Bool String List Lia Lqa Permutation.
From Verif Require Import Num Py Space Logger Forecast Module Container Microgrid NonModular Conversion
  Proofs_Num Proofs_Logger Spec_Module Spec_Reach Proofs_Module Proofs_Ts Proofs_Any
  Spec_Microgrid Proofs_Container Proofs_Run Proofs_Mgrid Proofs_Views
  Proofs_Build Proofs_Obs Proofs_Episode Spec_NonModular Proofs_NonModular Proofs_NmEpisode Spec_Conversion Proofs_Twin.
Import ListNotations.
Local Open Scope string_scope.
Local Open Scope list_scope.
Local Open Scope py_scope.
Local Open Scope Q_scope.

(** ** Dictionaries *)
Lemma dupdate_in {A} (kvs : list (string * A)) d k : NoDup (map fst kvs) ->
  (In k (map fst (dupdate d kvs)) <-> In k (map fst d) \/ In k (map fst kvs)).
Proof.
  intros N. assert (X : forall (e : dict A), In k (map fst e) <-> dget k e <> None).
  { intros e. split; [intros I Z; apply Proofs_Num.dget_None in Z; contradiction|].
    intros I. destruct (in_dec String.string_dec k (map fst e)) as [J|J]; [exact J|]. exfalso. apply I. apply Proofs_Num.dget_None. exact J. }
  rewrite !X, (dget_dupdate kvs d k N). destruct (dget k kvs), (dget k d); split; intros; try (left; congruence); try (right; congruence); try congruence.
  destruct H; congruence.
Qed.
Lemma Forall_dset {A} (P : A -> Prop) k v (d : dict A) : P v -> Forall (fun kl => P (snd kl)) d -> Forall (fun kl => P (snd kl)) (dset k v d).
Proof.
  intros V F. induction F as [|[a b] d Pb F IH]; simpl; [repeat constructor; exact V|].
  destruct (String.eqb k a); constructor; auto.
Qed.
Lemma Forall_dupdate {A} (P : A -> Prop) (kvs : list (string * A)) : forall d,
  Forall (fun kl => P (snd kl)) kvs -> Forall (fun kl => P (snd kl)) d -> Forall (fun kl => P (snd kl)) (dupdate d kvs).
Proof.
  unfold dupdate. induction kvs as [|[k v] kvs IH]; intros d F G; simpl; [exact G|]. inversion F; subst. apply IH; [assumption|].
  apply Forall_dset; assumption.
Qed.
Lemma NoDup_dupdate' {A} (kvs : list (string * A)) d : NoDup (map fst d) -> NoDup (map fst (dupdate d kvs)).
Proof. apply NoDup_dupdate. Qed.

(** ** What one module adds *)
Section Copy.
Variables (round1 : Q -> Q) (poly : nat -> Q).

Record contrib := mkC { c_par : list (string * Q); c_co2 : option Q; c_act : list string;
  c_status : list (string * list (cell Q)); c_gen : list string; c_cost : list string }.
Definition contribution (m : module Q) : res contrib :=
  match m_kind m with
  | KLoad t =>
      let? lo := first_of (ts_minobs t) in
      let? l := current_load t (m_cur m) in
      Ok (mkC [("load", nmul (nopp n1) lo)] None ["load"] [("load", [CNum (round1 l)])] ["loss_load"] [])
  | KRenewable t =>
      let? hi := first_of (ts_maxobs t) in
      let? x := current_renewable t (m_cur m) in
      Ok (mkC [("PV_rated_power", hi)] None ["pv_consummed"; "pv_curtailed"; "pv"] [("pv", [CNum x])] ["pv_consummed"; "pv_curtailed"] [])
  | KBattery b =>
      let left x := round1 (ndiv (nmul x (b_max_capacity b)) (b_efficiency b)) in
      Ok (mkC [("battery_soc_0", b_soc b); ("battery_power_charge", b_max_charge b);
               ("battery_power_discharge", b_max_discharge b);
               ("battery_capacity", b_max_capacity b); ("battery_efficiency", b_efficiency b);
               ("battery_soc_min", b_min_soc b); ("battery_soc_max", n1);
               ("battery_cost_cycle", b_cost_cycle b)] None ["battery_charge"; "battery_discharge"]
              [("battery_soc", [CNum (b_soc b)]);
               ("capa_to_charge", [CNum (left (nsub n1 (b_soc b)))]);
               ("capa_to_discharge", [CNum (left (nsub (b_soc b) (b_min_soc b)))])]
              ["battery_charge"; "battery_discharge"] ["battery"])
  | KGrid gr t =>
      let col j := column_of j (ts_rows t) in
      let? lowest := list_min (col 3%nat) in
      let? s0 := first_of (col 3%nat) in
      let? c0 := first_of (col 2%nat) in
      let? i0 := first_of (col 0%nat) in
      let? e0 := first_of (col 1%nat) in
      Ok (mkC [("grid_weak", bool_num (nltb lowest n1)); ("grid_power_import", gr_max_import gr);
               ("grid_power_export", gr_max_export gr)] (Some (gr_cost_co2 gr)) ["grid_import"; "grid_export"]
              [("grid_status", [CNum s0]); ("grid_co2", [CNum c0]); ("grid_price_import", [CNum i0]);
               ("grid_price_export", [CNum e0])]
              ["grid_import"; "grid_export"] ["grid_import"; "grid_export"])
  | KGenset s =>
      let pmax := nfrac 9 10 in
      let rated := ndiv (g_max_prod s) pmax in
      if neqb rated n0 then raise RuntimeError ""
      else
        match g_cost s with
        | FuelFn _ => raise RuntimeError "unmodelled: callable genset_cost"
        | FuelLin cost =>
            Ok (mkC [("genset_polynom_order", nofZ 3); ("genset_polynom_0", poly 0%nat);
                     ("genset_polynom_1", poly 1%nat); ("genset_polynom_2", poly 2%nat);
                     ("genset_rated_power", rated); ("genset_pmin", ndiv (g_min_prod s) rated);
                     ("genset_pmax", pmax); ("fuel_cost", cost); ("genset_co2", g_co2_per_unit s)]
                    (Some (g_cost_co2 s)) ["genset"] [] ["genset"] ["genset"])
        end
  | KUnbalanced u =>
      Ok (mkC [("cost_overgeneration", u_overgeneration_cost u); ("cost_loss_load", u_loss_load_cost u)]
              None [] [] ["overgeneration"] ["overgeneration"])
  end.
Definition flag (k : kind Q) (ar : arch) : arch :=
  match k with
  | KRenewable _ => mkArch true (has_battery ar) (has_genset ar) (has_grid ar)
  | KBattery _ => mkArch (has_pv ar) true (has_genset ar) (has_grid ar)
  | KGenset _ => mkArch (has_pv ar) (has_battery ar) true (has_grid ar)
  | KGrid _ _ => mkArch (has_pv ar) (has_battery ar) (has_genset ar) true
  | _ => ar
  end.
Definition mix (x : Q) (o : option Q) : Q :=
  match o with Some y => if neqb x y then y else ndiv (nadd x y) (nofZ 2) | None => x end.
Definition applied (m : module Q) (c : contrib) (sp : nm_spec Q) : nm_spec Q :=
  let col j t := column_of j (ts_rows t) in
  let p := dupdate (sp_parameters sp) (c_par c) in
  mkSpec (match c_co2 c with None => p | Some x => dupdate p [("cost_co2", mix x (dget "cost_co2" p))] end)
    (flag (m_kind m) (sp_arch sp))
    (match m_kind m with KLoad t => Some (col 0%nat t) | _ => sp_load sp end)
    (match m_kind m with KRenewable t => Some (col 0%nat t) | _ => sp_pv sp end)
    (match m_kind m with KGrid _ t => Some (col 3%nat t) | _ => sp_grid_ts sp end)
    (match m_kind m with KGrid _ t => Some (col 0%nat t) | _ => sp_import sp end)
    (match m_kind m with KGrid _ t => Some (col 1%nat t) | _ => sp_export sp end)
    (match m_kind m with KGrid _ t => Some (col 2%nat t) | _ => sp_co2 sp end)
    (add_empty (c_act c) (sp_actions sp))
    (dupdate (sp_status sp) (c_status c))
    (add_empty (c_gen c) (sp_generation sp))
    (let k := add_empty (c_cost c) (sp_cost sp) in match c_co2 c with None => k | Some _ => add_empty ["co2"] k end)
    (sp_df_co2 sp).
Lemma add_params_contrib m sp : add_params round1 poly m sp = let? c := contribution m in Ok (applied m c sp).
Proof.
  unfold add_params, contribution, applied. destruct (m_kind m) as [b|s|gr t|t|t|u].
  - reflexivity.
  - unfold add_genset_params. destruct (neqb _ _); [reflexivity|]. destruct (g_cost s); reflexivity.
  - unfold add_grid_params. destruct (list_min _); [|reflexivity]. cbn [rbind].
    do 4 (destruct (first_of _); [|reflexivity]; cbn [rbind]). reflexivity.
  - unfold add_load_params. destruct (first_of _); [|reflexivity]. cbn [rbind]. destruct (current_load _ _); reflexivity.
  - unfold add_pv_params. destruct (first_of _); [|reflexivity]. cbn [rbind]. destruct (current_renewable _ _); reflexivity.
  - reflexivity.
Qed.

(** The names that belong to a class *)
Definition par_keys (c : nat) : list string :=
  match c with
  | 0 => ["load"] | 1 => ["PV_rated_power"]
  | 2 => ["battery_soc_0"; "battery_power_charge"; "battery_power_discharge"; "battery_capacity"; "battery_efficiency";
          "battery_soc_min"; "battery_soc_max"; "battery_cost_cycle"]
  | 3 => ["grid_weak"; "grid_power_import"; "grid_power_export"]
  | 4 => ["genset_polynom_order"; "genset_polynom_0"; "genset_polynom_1"; "genset_polynom_2"; "genset_rated_power"; "genset_pmin";
          "genset_pmax"; "fuel_cost"; "genset_co2"]
  | 5 => ["cost_overgeneration"; "cost_loss_load"]
  | _ => []
  end%nat.
Definition status_keys (c : nat) : list string :=
  match c with
  | 0 => ["load"] | 1 => ["pv"] | 2 => ["battery_soc"; "capa_to_charge"; "capa_to_discharge"]
  | 3 => ["grid_status"; "grid_co2"; "grid_price_import"; "grid_price_export"] | _ => []
  end%nat.
Definition gen_keys (c : nat) : list string :=
  match c with
  | 0 => ["loss_load"] | 1 => ["pv_consummed"; "pv_curtailed"] | 2 => ["battery_charge"; "battery_discharge"]
  | 3 => ["grid_import"; "grid_export"] | 4 => ["genset"] | 5 => ["overgeneration"] | _ => []
  end%nat.
Definition cost_keys (c : nat) : list string :=
  match c with
  | 2 => ["battery"] | 3 => ["grid_import"; "grid_export"; "co2"] | 4 => ["genset"; "co2"] | 5 => ["overgeneration"] | _ => []
  end%nat.
Notation cls m := (class_of (m_kind m)).
Lemma cls_bound (m : module Q) : (cls m < 6)%nat.
Proof. destruct (m_kind m); simpl; lia. Qed.
Lemma contribution_keys m c : contribution m = Ok c ->
  map fst (c_par c) = par_keys (cls m) /\ map fst (c_status c) = status_keys (cls m) /\ c_gen c = gen_keys (cls m)
  /\ Forall (fun kl => exists x, snd kl = [CNum x]) (c_status c)
  /\ c_cost c ++ (match c_co2 c with Some _ => ["co2"] | None => [] end) = cost_keys (cls m)
  /\ (c_co2 c = match m_kind m with KGrid gr _ => Some (gr_cost_co2 gr) | KGenset s => Some (g_cost_co2 s) | _ => None end).
Proof.
  unfold contribution. destruct (m_kind m) as [b|s|gr t|t|t|u]; intros E.
  - injection E as <-. conj; try reflexivity. repeat constructor; eexists; reflexivity.
  - destruct (neqb _ _); [discriminate|]. destruct (g_cost s); [|discriminate]. injection E as <-. conj; try reflexivity. constructor.
  - apply rbind_ok in E. destruct E as (? & _ & E). do 4 (apply rbind_ok in E; destruct E as (? & _ & E)). injection E as <-.
    conj; try reflexivity. repeat constructor; eexists; reflexivity.
  - do 2 (apply rbind_ok in E; destruct E as (? & _ & E)). injection E as <-. conj; try reflexivity. repeat constructor; eexists; reflexivity.
  - do 2 (apply rbind_ok in E; destruct E as (? & _ & E)). injection E as <-. conj; try reflexivity. repeat constructor; eexists; reflexivity.
  - injection E as <-. conj; try reflexivity. constructor.
Qed.
Lemma par_keys_nodup c : NoDup (par_keys c).
Proof. destruct c as [|[|[|[|[|[|c]]]]]]; simpl; repeat constructor; simpl; intuition congruence. Qed.
Lemma status_keys_nodup c : NoDup (status_keys c).
Proof. destruct c as [|[|[|[|[|[|c]]]]]]; simpl; repeat constructor; simpl; intuition congruence. Qed.
Lemma par_keys_one a b k : In k (par_keys a) -> In k (par_keys b) -> a = b.
Proof.
  intros A B. destruct a as [|[|[|[|[|[|a]]]]]], b as [|[|[|[|[|[|b]]]]]]; simpl in A, B; try contradiction; try reflexivity;
    exfalso; intuition congruence.
Qed.
Lemma status_keys_one a b k : In k (status_keys a) -> In k (status_keys b) -> a = b.
Proof.
  intros A B. destruct a as [|[|[|[|[|[|a]]]]]], b as [|[|[|[|[|[|b]]]]]]; simpl in A, B; try contradiction; try reflexivity;
    exfalso; intuition congruence.
Qed.
Lemma no_co2_key c : ~ In "cost_co2" (par_keys c).
Proof using Type. clear round1 poly.
destruct c as [|[|[|[|[|[|c]]]]]]; simpl; intuition congruence. Qed.

(** ** What a list of modules adds *)
Definition has_class (c : nat) (ms : list (module Q)) : Prop := exists m, In m ms /\ cls m = c.
Definition only_empty {A B} (r : list (A * list B)) : Prop := Forall (fun kl => snd kl = []) r.
Record grown (ms : list (module Q)) (sp sp' : nm_spec Q) : Prop := mkGrown {
  gn_par : forall k, k <> "cost_co2" -> (forall m, In m ms -> ~ In k (par_keys (cls m))) ->
    dget k (sp_parameters sp') = dget k (sp_parameters sp);
  gn_co2 : ~ has_class 3 ms -> ~ has_class 4 ms -> dget "cost_co2" (sp_parameters sp') = dget "cost_co2" (sp_parameters sp);
  gn_load : ~ has_class 0 ms -> sp_load sp' = sp_load sp;
  gn_pv : ~ has_class 1 ms -> sp_pv sp' = sp_pv sp;
  gn_grid : ~ has_class 3 ms -> sp_grid_ts sp' = sp_grid_ts sp /\ sp_import sp' = sp_import sp
    /\ sp_export sp' = sp_export sp /\ sp_co2 sp' = sp_co2 sp;
  gn_status : forall k, (forall m, In m ms -> ~ In k (status_keys (cls m))) -> dget k (sp_status sp') = dget k (sp_status sp);
  gn_has_pv : has_pv (sp_arch sp') = true <-> has_pv (sp_arch sp) = true \/ has_class 1 ms;
  gn_has_battery : has_battery (sp_arch sp') = true <-> has_battery (sp_arch sp) = true \/ has_class 2 ms;
  gn_has_grid : has_grid (sp_arch sp') = true <-> has_grid (sp_arch sp) = true \/ has_class 3 ms;
  gn_has_genset : has_genset (sp_arch sp') = true <-> has_genset (sp_arch sp) = true \/ has_class 4 ms;
  gn_status_in : forall k, In k (map fst (sp_status sp')) <->
    In k (map fst (sp_status sp)) \/ exists m, In m ms /\ In k (status_keys (cls m));
  gn_gen_in : forall k, In k (map fst (sp_generation sp')) <->
    In k (map fst (sp_generation sp)) \/ exists m, In m ms /\ In k (gen_keys (cls m));
  gn_cost_in : forall k, In k (map fst (sp_cost sp')) <->
    In k (map fst (sp_cost sp)) \/ exists m, In m ms /\ In k (cost_keys (cls m));
  gn_nodup : (NoDup (map fst (sp_status sp)) -> NoDup (map fst (sp_status sp')))
    /\ (NoDup (map fst (sp_generation sp)) -> NoDup (map fst (sp_generation sp')))
    /\ (NoDup (map fst (sp_cost sp)) -> NoDup (map fst (sp_cost sp')));
  gn_first : Forall (fun kl => exists x, snd kl = [CNum x]) (sp_status sp) -> Forall (fun kl => exists x, snd kl = [CNum x]) (sp_status sp');
  gn_empty : (only_empty (sp_generation sp) -> only_empty (sp_generation sp'))
    /\ (only_empty (sp_cost sp) -> only_empty (sp_cost sp')) /\ (only_empty (sp_actions sp) -> only_empty (sp_actions sp'));
  gn_df : sp_df_co2 sp' = sp_df_co2 sp
}.
Lemma has_class_app c a b : has_class c (a ++ b) <-> has_class c a \/ has_class c b.
Proof.
  unfold has_class. split.
  - intros (m & I & E). apply in_app_iff in I. destruct I; [left|right]; eauto.
  - intros [(m & I & E)|(m & I & E)]; exists m; rewrite in_app_iff; auto.
Qed.
Lemma has_class_nil c : ~ has_class c [].
Proof. intros (m & [] & _). Qed.
Lemma has_class_one c m : has_class c [m] <-> cls m = c.
Proof. unfold has_class. split; [intros (x & [<-|[]] & E); exact E|intros E; exists m; simpl; auto]. Qed.
Lemma grown_nil sp : grown [] sp sp.
Proof.
  constructor; try (intros; reflexivity); try (split; [tauto|intros [X|X]; [exact X|exfalso; exact (has_class_nil _ X)]]);
    try (intros k; split; [tauto|intros [X|(m & [] & _)]; exact X]); auto.
Qed.
Lemma grown_trans a b sp1 sp2 sp3 : grown a sp1 sp2 -> grown b sp2 sp3 -> grown (a ++ b) sp1 sp3.
Proof.
  intros A B.
  assert (EX : forall (f : nat -> list string) k, (exists m, In m (a ++ b) /\ In k (f (cls m)))
    <-> (exists m, In m a /\ In k (f (cls m))) \/ (exists m, In m b /\ In k (f (cls m)))).
  { intros f k. split.
    - intros (m & I & J). apply in_app_iff in I. destruct I; eauto.
    - intros [(m & I & J)|(m & I & J)]; exists m; rewrite in_app_iff; auto. }
  constructor.
  - intros k N F. rewrite (gn_par _ _ _ B), (gn_par _ _ _ A); auto; intros m I; apply F; apply in_app_iff; auto.
  - rewrite !has_class_app. intros N1 N2. rewrite (gn_co2 _ _ _ B), (gn_co2 _ _ _ A); tauto.
  - rewrite !has_class_app. intros N1. rewrite (gn_load _ _ _ B), (gn_load _ _ _ A); tauto.
  - rewrite !has_class_app. intros N1. rewrite (gn_pv _ _ _ B), (gn_pv _ _ _ A); tauto.
  - rewrite !has_class_app. intros N1. destruct (gn_grid _ _ _ B) as (-> & -> & -> & ->); [tauto|]. apply (gn_grid _ _ _ A); tauto.
  - intros k F. rewrite (gn_status _ _ _ B), (gn_status _ _ _ A); auto; intros m I; apply F; apply in_app_iff; auto.
  - rewrite (gn_has_pv _ _ _ B), (gn_has_pv _ _ _ A), has_class_app. tauto.
  - rewrite (gn_has_battery _ _ _ B), (gn_has_battery _ _ _ A), has_class_app. tauto.
  - rewrite (gn_has_grid _ _ _ B), (gn_has_grid _ _ _ A), has_class_app. tauto.
  - rewrite (gn_has_genset _ _ _ B), (gn_has_genset _ _ _ A), has_class_app. tauto.
  - intros k. rewrite (gn_status_in _ _ _ B), (gn_status_in _ _ _ A), EX. tauto.
  - intros k. rewrite (gn_gen_in _ _ _ B), (gn_gen_in _ _ _ A), EX. tauto.
  - intros k. rewrite (gn_cost_in _ _ _ B), (gn_cost_in _ _ _ A), EX. tauto.
  - destruct (gn_nodup _ _ _ A) as (? & ? & ?), (gn_nodup _ _ _ B) as (? & ? & ?). auto.
  - intros F. apply (gn_first _ _ _ B), (gn_first _ _ _ A), F.
  - destruct (gn_empty _ _ _ A) as (? & ? & ?), (gn_empty _ _ _ B) as (? & ? & ?). auto.
  - rewrite (gn_df _ _ _ B). exact (gn_df _ _ _ A).
Qed.
Lemma keys_empty (l : list string) : map fst (map (fun k => (k, @nil (cell Q))) l) = l.
Proof. rewrite map_map. simpl. apply map_id. Qed.
Lemma add_empty_in l (r : record Q) k : In k (map fst (add_empty l r)) <-> In k (map fst r) \/ In k l.
Proof.
  unfold add_empty, dupdate. revert r. induction l as [|a l IH]; intros r; simpl; [tauto|]. rewrite IH.
  assert (X : In k (map fst (dset a [] r)) <-> In k (map fst r) \/ k = a).
  { pose proof (dupdate_in [(a, @nil (cell Q))] r k) as X. unfold dupdate in X. simpl in X. rewrite X; [intuition|]. repeat constructor. simpl. tauto. }
  rewrite X. intuition.
Qed.
Lemma add_empty_only l (r : record Q) : only_empty r -> only_empty (add_empty l r).
Proof.
  intros E. unfold only_empty, add_empty in *. apply (Forall_dupdate (fun x => x = [])); [|exact E].
  apply Forall_forall. intros kl I. apply in_map_iff in I. destruct I as (k & <- & _). reflexivity.
Qed.
Lemma grown_one m sp sp' : add_params round1 poly m sp = Ok sp' -> grown [m] sp sp'.
Proof.
  rewrite add_params_contrib. intros E. apply rbind_ok in E. destruct E as (c & C & E).
  assert (sp' = applied m c sp) as -> by congruence. clear E.
  destruct (contribution_keys m c C) as (K1 & K2 & K3 & K4 & K5 & K6).
  assert (ND1 : NoDup (map fst (c_par c))) by (rewrite K1; apply par_keys_nodup).
  assert (ND2 : NoDup (map fst (c_status c))) by (rewrite K2; apply status_keys_nodup).
  assert (EX : forall (f : nat -> list string) k, (exists x, In x [m] /\ In k (f (cls x))) <-> In k (f (cls m))).
  { intros f k. split; [intros (x & [<-|[]] & J); exact J|intros J; exists m; simpl; auto]. }
  assert (NI : forall A k (d : dict A), ~ In k (map fst d) -> dget k d = None) by (intros; apply Proofs_Num.dget_None; assumption).
  constructor; unfold applied; cbn [sp_parameters sp_arch sp_load sp_pv sp_grid_ts sp_import sp_export sp_co2 sp_actions sp_status sp_generation sp_cost sp_df_co2].
  - intros k N F. specialize (F m (or_introl eq_refl)). rewrite <- K1 in F.
    assert (X : dget k (dupdate (sp_parameters sp) (c_par c)) = dget k (sp_parameters sp)).
    { rewrite (dget_dupdate _ _ _ ND1), (NI _ _ _ F). reflexivity. }
    destruct (c_co2 c); [|exact X]. rewrite dget_dupdate by (repeat constructor; simpl; tauto). cbn [dget].
    apply String.eqb_neq in N. rewrite N. exact X.
  - rewrite !has_class_one. intros N3 N4. assert (c_co2 c = None) as ->.
    { rewrite K6. destruct (m_kind m); try reflexivity; simpl in N3, N4; exfalso; lia. }
    rewrite (dget_dupdate _ _ _ ND1), (NI _ _ (c_par c)); [reflexivity|]. rewrite K1. apply no_co2_key.
  - rewrite has_class_one. destruct (m_kind m); simpl; intros N; try reflexivity. exfalso. apply N. reflexivity.
  - rewrite has_class_one. destruct (m_kind m); simpl; intros N; try reflexivity. exfalso. apply N. reflexivity.
  - rewrite has_class_one. destruct (m_kind m); simpl; intros N; auto. exfalso. apply N. reflexivity.
  - intros k F. specialize (F m (or_introl eq_refl)). rewrite <- K2 in F. rewrite (dget_dupdate _ _ _ ND2), (NI _ _ _ F). reflexivity.
  - rewrite has_class_one. destruct (m_kind m); simpl; intuition; lia.
  - rewrite has_class_one. destruct (m_kind m); simpl; intuition; lia.
  - rewrite has_class_one. destruct (m_kind m); simpl; intuition; lia.
  - rewrite has_class_one. destruct (m_kind m); simpl; intuition; lia.
  - intros k. rewrite (EX status_keys), (dupdate_in _ _ _ ND2), K2. tauto.
  - intros k. rewrite (EX gen_keys), add_empty_in, K3. tauto.
  - intros k. rewrite (EX cost_keys), <- K5, in_app_iff. destruct (c_co2 c); rewrite ?add_empty_in; simpl; tauto.
  - conj; intros N; try (apply NoDup_dupdate; exact N). destruct (c_co2 c); unfold add_empty; repeat apply NoDup_dupdate; exact N.
  - intros F. apply (Forall_dupdate (fun x => exists y, x = [CNum y])); assumption.
  - conj; intros F; try (apply add_empty_only; exact F). destruct (c_co2 c); repeat apply add_empty_only; exact F.
  - reflexivity.
Qed.
Lemma add_all_grown ms : forall sp sp', add_all round1 poly ms sp = Ok sp' -> grown ms sp sp'.
Proof.
  induction ms as [|m ms IH]; intros sp sp' E; cbn [add_all] in E.
  - injection E as <-. apply grown_nil.
  - apply rbind_ok in E. destruct E as (sp1 & E1 & E2). change (m :: ms) with ([m] ++ ms). eapply grown_trans; [apply grown_one; exact E1|auto].
Qed.
Lemma add_all_split a : forall m b sp sp', add_all round1 poly (a ++ m :: b) sp = Ok sp' ->
  exists sp1 c, add_all round1 poly a sp = Ok sp1 /\ contribution m = Ok c /\ add_all round1 poly b (applied m c sp1) = Ok sp'.
Proof.
  induction a as [|x a IH]; intros m b sp sp' E; cbn [add_all app] in *.
  - apply rbind_ok in E. destruct E as (sp1 & E1 & E2). rewrite add_params_contrib in E1. apply rbind_ok in E1. destruct E1 as (c & C & E1).
    exists sp, c. split; [reflexivity|]. split; [exact C|]. congruence.
  - apply rbind_ok in E. destruct E as (sp1 & E1 & E2). destruct (IH _ _ _ _ E2) as (sp2 & c & A & B & C). exists sp2, c. rewrite E1. cbn [rbind]. auto.
Qed.

(** ** Each module's own entries in the end *)
Lemma add_all_contrib ms : forall sp sp', add_all round1 poly ms sp = Ok sp' -> forall m, In m ms -> exists c, contribution m = Ok c.
Proof.
  intros sp sp' E m I. apply in_split in I. destruct I as (a & b & ->). destruct (add_all_split _ _ _ _ _ E) as (sp1 & c & _ & C & _). eauto.
Qed.
Lemma add_all_total ms : (forall m, In m ms -> exists c, contribution m = Ok c) -> forall sp, exists sp', add_all round1 poly ms sp = Ok sp'.
Proof.
  induction ms as [|m ms IH]; intros F sp; cbn [add_all]; [eauto|]. destruct (F m (or_introl eq_refl)) as (c & C).
  rewrite add_params_contrib, C. cbn [rbind]. apply IH. intros x I. apply F. right. exact I.
Qed.
Lemma distinct_others a m b : NoDup (map (fun y : module Q => cls y) (a ++ m :: b)) ->
  (forall x, In x a -> cls x <> cls m) /\ (forall x, In x b -> cls x <> cls m).
Proof.
  intros N. rewrite map_app in N. cbn [map] in N. apply NoDup_remove_2 in N.
  split; intros x I E; apply N; apply in_app_iff; [left|right]; rewrite <- E; apply in_map_iff; eauto.
Qed.
Lemma par_in_end ms sp sp' m c k v : add_all round1 poly ms sp = Ok sp' -> NoDup (map (fun y : module Q => cls y) ms) -> In m ms ->
  contribution m = Ok c -> In (k, v) (c_par c) -> dget k (sp_parameters sp') = Some v.
Proof.
  intros E N I C J. apply in_split in I. destruct I as (a & b & ->). destruct (distinct_others _ _ _ N) as (NA & NB).
  destruct (add_all_split _ _ _ _ _ E) as (sp1 & c' & _ & C' & EB). assert (c' = c) as -> by congruence.
  destruct (contribution_keys m c C) as (K1 & _).
  assert (ND1 : NoDup (map fst (c_par c))) by (rewrite K1; apply par_keys_nodup).
  assert (KI : In k (par_keys (cls m))) by (rewrite <- K1; apply in_map_iff; exists (k, v); auto).
  assert (KN : k <> "cost_co2") by (intros ->; exact (no_co2_key _ KI)).
  rewrite (gn_par _ _ _ (add_all_grown _ _ _ EB) k KN).
  - unfold applied. cbn [sp_parameters].
    assert (X : dget k (dupdate (sp_parameters sp1) (c_par c)) = Some v).
    { rewrite (dget_dupdate _ _ _ ND1). rewrite (Proofs_Num.In_dget _ _ _ ND1 J). reflexivity. }
    destruct (c_co2 c); [|exact X]. rewrite dget_dupdate by (repeat constructor; simpl; tauto). cbn [dget].
    apply String.eqb_neq in KN. rewrite KN. exact X.
  - intros x I K. exact (NB x I (par_keys_one _ _ _ K KI)).
Qed.
Lemma status_in_end ms sp sp' m c k v : add_all round1 poly ms sp = Ok sp' -> NoDup (map (fun y : module Q => cls y) ms) -> In m ms ->
  contribution m = Ok c -> In (k, v) (c_status c) -> dget k (sp_status sp') = Some v.
Proof.
  intros E N I C J. apply in_split in I. destruct I as (a & b & ->). destruct (distinct_others _ _ _ N) as (NA & NB).
  destruct (add_all_split _ _ _ _ _ E) as (sp1 & c' & _ & C' & EB). assert (c' = c) as -> by congruence.
  destruct (contribution_keys m c C) as (_ & K2 & _).
  assert (ND1 : NoDup (map fst (c_status c))) by (rewrite K2; apply status_keys_nodup).
  assert (KI : In k (status_keys (cls m))) by (rewrite <- K2; apply in_map_iff; exists (k, v); auto).
  rewrite (gn_status _ _ _ (add_all_grown _ _ _ EB) k).
  - unfold applied. cbn [sp_status]. rewrite (dget_dupdate _ _ _ ND1). rewrite (Proofs_Num.In_dget _ _ _ ND1 J). reflexivity.
  - intros x I K. exact (NB x I (status_keys_one _ _ _ K KI)).
Qed.
Lemma series_in_end ms sp sp' m : add_all round1 poly ms sp = Ok sp' -> NoDup (map (fun y : module Q => cls y) ms) -> In m ms ->
  match m_kind m with
  | KLoad t => sp_load sp' = Some (ts_column 0 (ts_rows t))
  | KRenewable t => sp_pv sp' = Some (ts_column 0 (ts_rows t))
  | KGrid _ t => sp_import sp' = Some (ts_column 0 (ts_rows t)) /\ sp_export sp' = Some (ts_column 1 (ts_rows t))
      /\ sp_co2 sp' = Some (ts_column 2 (ts_rows t)) /\ sp_grid_ts sp' = Some (ts_column 3 (ts_rows t))
  | _ => True
  end.
Proof.
  intros E N I. apply in_split in I. destruct I as (a & b & ->). destruct (distinct_others _ _ _ N) as (NA & NB).
  destruct (add_all_split _ _ _ _ _ E) as (sp1 & c & _ & C & EB). pose proof (add_all_grown _ _ _ EB) as G.
  assert (H : ~ has_class (cls m) b) by (intros (x & I & X); exact (NB x I X)).
  unfold applied in G. destruct (m_kind m); try exact Logic.I; simpl in H.
  - destruct (gn_grid _ _ _ G H) as (A1 & A2 & A3 & A4). rewrite A1, A2, A3, A4. auto.
  - rewrite (gn_load _ _ _ G H). reflexivity.
  - rewrite (gn_pv _ _ _ G H). reflexivity.
Qed.
Definition co2_of (m : module Q) : option Q :=
  match m_kind m with KGrid gr _ => Some (gr_cost_co2 gr) | KGenset s => Some (g_cost_co2 s) | _ => None end.
Lemma co2_of_class m : co2_of m <> None <-> cls m = 3%nat \/ cls m = 4%nat.
Proof. unfold co2_of. destruct (m_kind m); simpl; split; intros H; try congruence; try tauto; destruct H; congruence. Qed.
Lemma no_co2 ms sp sp' : add_all round1 poly ms sp = Ok sp' -> (forall m, In m ms -> co2_of m = None) ->
  dget "cost_co2" (sp_parameters sp') = dget "cost_co2" (sp_parameters sp).
Proof.
  intros E F. apply (gn_co2 _ _ _ (add_all_grown _ _ _ E)); intros (m & I & K);
    (assert (X : co2_of m <> None) by (apply co2_of_class; auto)); apply X, F, I.
Qed.
Lemma one_co2 a m b sp sp' x : add_all round1 poly (a ++ m :: b) sp = Ok sp' -> co2_of m = Some x ->
  (forall n, In n a -> co2_of n = None) -> (forall n, In n b -> co2_of n = None) ->
  dget "cost_co2" (sp_parameters sp') = Some (mix x (dget "cost_co2" (sp_parameters sp))).
Proof.
  intros E X NA NB. destruct (add_all_split _ _ _ _ _ E) as (sp1 & c & EA & C & EB).
  rewrite (no_co2 _ _ _ EB NB). destruct (contribution_keys m c C) as (K1 & _ & _ & _ & _ & K6).
  assert (c_co2 c = Some x) as K by (rewrite K6; exact X). unfold applied. cbn [sp_parameters]. rewrite K.
  rewrite dget_dupdate by (repeat constructor; simpl; tauto). cbn [dget]. rewrite String.eqb_refl.
  assert (ND1 : NoDup (map fst (c_par c))) by (rewrite K1; apply par_keys_nodup).
  rewrite (dget_dupdate _ _ _ ND1). assert (D : dget "cost_co2" (c_par c) = None).
  { apply Proofs_Num.dget_None. rewrite K1. apply no_co2_key. }
  rewrite D, (no_co2 _ _ _ EA NA). reflexivity.
Qed.
Lemma add_all_app a : forall b sp sp', add_all round1 poly (a ++ b) sp = Ok sp' ->
  exists sp1, add_all round1 poly a sp = Ok sp1 /\ add_all round1 poly b sp1 = Ok sp'.
Proof.
  induction a as [|x a IH]; intros b sp sp' E; cbn [add_all app] in *; [eauto|].
  apply rbind_ok in E. destruct E as (sp1 & E1 & E2). destruct (IH _ _ _ E2) as (sp2 & A & B). exists sp2. rewrite E1. cbn [rbind]. auto.
Qed.
Lemma two_co2 a m b n e sp sp' x y : add_all round1 poly (a ++ m :: b ++ n :: e) sp = Ok sp' -> co2_of m = Some x -> co2_of n = Some y ->
  (forall k, In k a -> co2_of k = None) -> (forall k, In k b -> co2_of k = None) -> (forall k, In k e -> co2_of k = None) ->
  dget "cost_co2" (sp_parameters sp) = None ->
  dget "cost_co2" (sp_parameters sp') = Some (mix y (Some x)).
Proof.
  intros E X Y NA NB NE Z. replace (a ++ m :: b ++ n :: e) with ((a ++ m :: []) ++ (b ++ n :: e)) in E by (rewrite <- app_assoc; reflexivity).
  destruct (add_all_app _ _ _ _ E) as (sp1 & E1 & E2).
  rewrite (one_co2 _ _ _ _ _ _ E2 Y NB NE), (one_co2 _ _ _ _ _ _ E1 X NA); [|intros k []]. rewrite Z. reflexivity.
Qed.
Lemma mix_mean x y : mix y (Some x) == (x + y) / 2.
Proof.
  unfold mix. unum. destruct (Qeq_bool y x) eqn:B.
  - apply Qeq_bool_iff in B. rewrite B. field.
  - change (inject_Z 2) with 2. rewrite (Qplus_comm y x). reflexivity.
Qed.
End Copy.
