(** * Properties C16 - C22: time series, episodes, observations, forecasts

    Load and renewable series have one value per step, grid series four.
    [reachable m]: [m] comes from a constructor by any calls.  [built_ts fp h m]:
    [m] is a load, renewable or grid built with forecaster [fp] and
    [forecast_horizon] [h].  [series m], [final_step m], [horizon m] are the
    attributes of those names.  Exact rationals. *)

From Coq Require Import ZArith QArith Qabs Bool String List Lqa Lia.
From Verif Require Import Num Py Space Forecast Module Spec_Module Spec_Reach
  Proofs_Data Proofs_Setters Proofs_Props.
Import ListNotations.
Local Open Scope string_scope.
Local Open Scope list_scope.
Local Open Scope Q_scope.

Definition ex_rnd : frand Q := mkFrand 0 (fun k i j => inject_Z (Z.of_nat (k + 2 * i + j))).
(** A load of 5, 7, 0, 3 with a perfect forecast two steps ahead, and a grid
    with an outage in the second of three steps and a noisy forecast. *)
Definition ex_load (fp : fparam Q) (h : nat) : res (module Q) :=
  new_load [[5]; [7]; [0]; [3]] fp h false 0 4 false ex_rnd.
Definition ex_grid_rows : list (list Q) := [[1; 2; 3; 1]; [4; 5; 6; 0]; [7; 8; 9; 1]].
Definition ex_grid (fp : fparam Q) (h : nat) : res (module Q) :=
  new_grid 10 20 ex_grid_rows fp h false 0 3 (1#10) false Flex ex_rnd.
Lemma ex_load_built fp h m : ex_load fp h = Ok m -> built_ts fp h m.
Proof. intros E. unfold ex_load in E. eapply bts_load; [|exact E]. repeat constructor. Qed.
Lemma ex_grid_built fp h m : ex_grid fp h = Ok m -> built_ts fp h m.
Proof. intros E. unfold ex_grid in E. eapply bts_grid. exact E. Qed.
Lemma ex_reachable fp h cs m : built_ts fp h m -> reachable (fst (play cs m)).
Proof. intros B. exists m, cs. split; [exact (built_ts_built _ _ _ B)|reflexivity]. Qed.
Definition meet : call Q := Step (VA []) false.
Definition buy (e : Q) : call Q := Step (VS e) false.

(** C16. *)
Theorem C16_load_sign rows fp h inc initial final re rnd m cs :
  single_column rows -> new_load rows fp h inc initial final re rnd = Ok m ->
  (all_nonneg rows \/ all_nonpos rows)
  /\ same_magnitude (fun y => y <= 0) rows (series m)
  /\ series (fst (play cs m)) = series m.
Proof. exact (C16_load_lemma _ _ _ _ _ _ _ _ _ _). Qed.
Print Assumptions C16_load_sign.

Theorem C16_renewable_sign rows fp h inc initial final re prov rnd m cs :
  single_column rows -> new_renewable rows fp h inc initial final re prov rnd = Ok m ->
  (all_nonneg rows \/ all_nonpos rows)
  /\ same_magnitude (fun y => 0 <= y) rows (series m)
  /\ series (fst (play cs m)) = series m.
Proof. exact (C16_renewable_lemma _ _ _ _ _ _ _ _ _ _ _). Qed.
Print Assumptions C16_renewable_sign.

(** Every series of one sign is accepted (with any forecaster of the library). *)
Theorem C16_one_sign_accepted rows fp h inc initial final re prov rnd :
  single_column rows -> rows <> [] -> (all_nonneg rows \/ all_nonpos rows) -> ~ asks_user fp ->
  (exists m, new_load rows fp h inc initial final re rnd = Ok m)
  /\ (exists m, new_renewable rows fp h inc initial final re prov rnd = Ok m).
Proof. exact (C16_accepts_lemma _ _ _ _ _ _ _ _ _). Qed.
Print Assumptions C16_one_sign_accepted.

Theorem C16_mixed_rejected rows x y fp h inc initial final re prov rnd :
  single_column rows -> In x (concat rows) -> In y (concat rows) -> x < 0 -> 0 < y ->
  raises ValueError (new_load rows fp h inc initial final re rnd)
  /\ raises ValueError (new_renewable rows fp h inc initial final re prov rnd).
Proof. exact (C16_mixed_lemma _ _ _ _ _ _ _ _ _ _ _). Qed.
Print Assumptions C16_mixed_rejected.

Example C16_example :
  single_column [[5]; [7]; [0]; [3]] /\ all_nonneg [[5]; [7]; [0]; [3]]
  /\ match ex_load FPOracle 2 with
     | Ok m => series m = [[-5]; [-7]; [0]; [-3]]
     | Err _ => False
     end
  /\ In (-1) (concat [[2]; [-1]]) /\ In 2 (concat [[2]; [-1]]).
Proof.
  split; [repeat constructor|]. split; [repeat constructor; lra|].
  split; [vm_compute; reflexivity|]. simpl. auto.
Qed.

(** C17.  [m_cur] is [current_step]. *)
Theorem C17_done_at_the_end (m m' : module Q) a n o :
  reachable m -> step a n m = (m', Ok o) ->
  m_cur m' = (m_cur m + 1)%Z
  /\ (done_of o = true <-> exists f, final_step m = Some f /\ (f - 1 <= m_cur m)%Z).
Proof. exact (C17_step _ _ _ _ _). Qed.
Print Assumptions C17_done_at_the_end.

(** The [j]-th step of a sequence of steps (counted from 0, failed calls not
    counted) reports done iff it is the last of the episode or later. *)
Theorem C17_episode_length cs (m m' : module Q) os :
  reachable m -> ~ user_forecaster m -> Forall step_only cs -> play cs m = (m', os) ->
  m_cur m' = (m_cur m + Z.of_nat (length os))%Z
  /\ forall j o, nth_error os j = Some o ->
       (done_of o = true <-> exists f, final_step m = Some f /\ (f - 1 <= m_cur m + Z.of_nat j)%Z).
Proof. exact (C17_episode cs m m' os). Qed.
Print Assumptions C17_episode_length.

(** The second call (asking a load for energy) and the last (past the data) fail. *)
Example C17_example :
  match ex_load FPOracle 2 with
  | Ok m => reachable m /\ ~ user_forecaster m /\ final_step m = Some 4%Z
            /\ Forall step_only [meet; Step (VS 3) false; meet; meet; meet; meet]
            /\ map done_of (snd (play [meet; Step (VS 3) false; meet; meet; meet; meet] m))
               = [false; false; false; true]
  | Err _ => False
  end.
Proof.
  destruct (ex_load FPOracle 2) as [m|] eqn:E; [|discriminate E].
  split. { exact (ex_reachable _ _ [] _ (ex_load_built _ _ _ E)). }
  injection E as <-. split; [intros (t & vec & f & T & K); inversion T; subst; discriminate K|].
  split; [reflexivity|]. split; [repeat constructor|]. vm_compute. reflexivity.
Qed.

(** C18.  The state has one row for now and one per forecast step; all of it
    lies in the observation space, its normalized form in the unit cube; while
    the step is inside the data its first row is the data. *)
Theorem C18_observations (m : module Q) : reachable m -> is_ts m ->
  exists s o, state m = Ok s /\ norm_obs m = Ok o
    /\ length s = ((1 + horizon m) * columns m)%nat
    /\ in_range (m_obs m) (VA s) /\ in_unit o
    /\ forall k row, m_cur m = Z.of_nat k -> data_at m k = Some row ->
         length row = columns m /\ firstn (columns m) s = row.
Proof. exact (C18_lemma m). Qed.
Print Assumptions C18_observations.

Example C18_example :
  match ex_load FPOracle 2 with
  | Ok m => let m' := fst (play [meet] m) in
            reachable m' /\ is_ts m' /\ m_cur m' = 1%Z /\ data_at m' 1 = Some [-7]
            /\ state m' = Ok [-7; 0; -3]
  | Err _ => False
  end.
Proof.
  destruct (ex_load FPOracle 2) as [m|] eqn:E; [|discriminate E].
  split. { exact (ex_reachable _ _ [meet] _ (ex_load_built _ _ _ E)). }
  injection E as <-. split; [vm_compute; discriminate|]. vm_compute. repeat split.
Qed.

(** C19.  Any forecaster, any stream of noise; only user functions can fail,
    and only the absence of a forecaster gives no forecast. *)
Theorem C19_forecast_shape_and_bounds fp h m0 cs m m' r :
  built_ts fp h m0 -> m = fst (play cs m0) -> module_forecast m = (m', r) ->
  match r with
  | Ok (Some f) => length f = (if fparam_given fp then h else 0%nat)
                   /\ Forall (row_within (low_row m) (high_row m)) f
  | Ok None => fp = FPNone
  | Err _ => exists u, fp = FPUser u
  end.
Proof. intros B M F. exact (proj2 (C19_lemma fp h m0 cs m m' r B M F)). Qed.
Print Assumptions C19_forecast_shape_and_bounds.

Example C19_example :
  match ex_grid (FPNoise 5) 2 with
  | Ok m0 => built_ts (FPNoise 5) 2 m0
             /\ exists m' f, module_forecast (fst (play [buy 3] m0)) = (m', Ok (Some f))
                             /\ length f = 2%nat
  | Err _ => False
  end.
Proof.
  destruct (ex_grid (FPNoise 5) 2) as [m|] eqn:E; [|discriminate E].
  split; [exact (ex_grid_built _ _ _ E)|]. injection E as <-.
  destruct (module_forecast _) as [m' r] eqn:F. vm_compute in F. injection F as <- <-.
  do 2 eexists. split; reflexivity.
Qed.

(** C20. *)
Theorem C20_oracle_is_right h m0 cs m k :
  built_ts FPOracle h m0 -> m = fst (play cs m0) -> m_cur m = Z.of_nat k ->
  exists m' f, module_forecast m = (m', Ok (Some f)) /\ length f = h
    /\ forall j, (j < h)%nat ->
         nth_error f j = Some (match data_at m (k + 1 + j) with
                               | Some row => row
                               | None => mid_row (low_row m) (high_row m)
                               end).
Proof. exact (C20_lemma h m0 cs m k). Qed.
Print Assumptions C20_oracle_is_right.

Example C20_example :
  match ex_load FPOracle 2 with
  | Ok m0 => built_ts FPOracle 2 m0 /\ m_cur (fst (play [meet; meet] m0)) = 2%Z
             /\ exists m', module_forecast (fst (play [meet; meet] m0)) = (m', Ok (Some [[-3]; [-7#2]]))
  | Err _ => False
  end.
Proof.
  destruct (ex_load FPOracle 2) as [m|] eqn:E; [|discriminate E].
  split; [exact (ex_load_built _ _ _ E)|]. injection E as <-.
  split; [vm_compute; reflexivity|]. eexists. vm_compute. reflexivity.
Qed.

(** C21.  Forecasts leave the series alone ... *)
Theorem C21_forecast_leaves_data fp h m0 cs m m' r :
  built_ts fp h m0 -> m = fst (play cs m0) -> module_forecast m = (m', r) ->
  series m' = series m.
Proof. intros B M F. exact (proj1 (C19_lemma fp h m0 cs m m' r B M F)). Qed.
Print Assumptions C21_forecast_leaves_data.

(** ... until [time_series] is assigned: then the next oracle forecast clips
    the rows it covers, in place, to the bounds of the old data. *)
Theorem C21_forecast_overwrites_new_series h m0 cs m rows m1 k :
  built_ts FPOracle h m0 -> m = fst (play cs m0) ->
  set_series rows m = (m1, Ok tt) -> Forall (fun r => length r = columns m) rows ->
  m_cur m = Z.of_nat k -> (0 < h)%nat -> (k + h < length rows)%nat ->
  exists m2 f, module_forecast m1 = (m2, Ok (Some f))
    /\ forall j, nth_error (series m2) j
         = option_map (fun r => if (k <? j)%nat && (j <=? k + h)%nat
                                then clip_each (low_row m) (high_row m) r else r)
                      (nth_error (series m1) j).
Proof. exact (C21_overwrites h m0 cs m rows m1 k). Qed.
Print Assumptions C21_forecast_overwrites_new_series.

(** A load bounded by 7 is given a series with 100s: two of them become 7. *)
Example C21_refuted :
  match ex_load FPOracle 2 with
  | Ok m0 => let rows := [[100]; [100]; [100]; [100]] in
             built_ts FPOracle 2 m0 /\ m_cur m0 = 0%Z
             /\ Forall (fun r => length r = columns m0) rows
             /\ let m1 := fst (set_series rows m0) in
                snd (set_series rows m0) = Ok tt
                /\ series m1 = [[-100]; [-100]; [-100]; [-100]]
                /\ series (fst (module_forecast m1)) = [[-100]; [-7]; [-7]; [-100]]
  | Err _ => False
  end.
Proof.
  destruct (ex_load FPOracle 2) as [m|] eqn:E; [|discriminate E].
  split; [exact (ex_load_built _ _ _ E)|]. injection E as <-.
  split; [reflexivity|]. split; [repeat constructor|]. vm_compute. repeat split.
Qed.

(** C22.  What [set_forecaster] does to the lengths. *)
Theorem C22_lengths_after_set_forecaster fp h inc rnd (m m1 : module Q) :
  reachable m -> is_ts m -> set_forecaster fp h inc rnd m = (m1, Ok tt) ->
  let h1 := if fparam_given fp then h else 0%nat in
  horizon m1 = h1 /\ columns m1 = columns m /\ series m1 = series m
  /\ length (sp_low (m_obs m1)) = ((1 + h1) * columns m)%nat
  /\ (exists s, state m1 = Ok s /\ length s = ((1 + Nat.min h1 (horizon m)) * columns m)%nat)
  /\ ((horizon m < h1)%nat -> raises TypeError (norm_obs m1))
  /\ ((h1 <= horizon m)%nat -> exists o, norm_obs m1 = Ok o)
  /\ (forall m2 o, reset m1 = (m2, Ok o) ->
        exists s, state m2 = Ok s /\ length s = ((1 + h1) * columns m)%nat /\ norm_obs m2 = Ok o
                  /\ in_range (m_obs m2) (VA s)).
Proof. exact (C22_lemma fp h inc rnd m m1). Qed.
Print Assumptions C22_lengths_after_set_forecaster.

Example C22_example :
  match ex_grid FPOracle 1 with
  | Ok m => reachable m /\ is_ts m
            /\ let '(m1, r) := set_forecaster FPOracle 2 false ex_rnd m in
               r = Ok tt /\ horizon m1 = 2%nat /\ length (sp_low (m_obs m1)) = 12%nat
               /\ (exists s, state m1 = Ok s /\ length s = 8%nat)
               /\ (exists e, norm_obs m1 = Err e)
               /\ exists m2 o, reset m1 = (m2, Ok o)
  | Err _ => False
  end.
Proof.
  destruct (ex_grid FPOracle 1) as [m|] eqn:E; [|discriminate E].
  split. { exact (ex_reachable _ _ [] _ (ex_grid_built _ _ _ E)). }
  injection E as <-. split; [vm_compute; discriminate|].
  destruct (set_forecaster _ _ _ _ _) as [m1 r] eqn:F. vm_compute in F. injection F as <- <-.
  split; [reflexivity|]. split; [reflexivity|]. split; [reflexivity|].
  split; [eexists; split; vm_compute; reflexivity|].
  split; [eexists; vm_compute; reflexivity|].
  match goal with |- exists m2 o, reset ?m = _ => destruct (reset m) as [m2 r] eqn:F end.
  vm_compute in F. injection F as <- <-. do 2 eexists. reflexivity.
Qed.
