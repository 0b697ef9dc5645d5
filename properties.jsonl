{"id": "C01", "title": "Module-space normalization is lossless", "statement": "For every module space, denormalize(normalize(x)) gives back x and normalize(denormalize(y)) gives back y, for scalars and arrays of the right shape; a value of the wrong shape is refused with TypeError instead of being broadcast. (Exact arithmetic.)", "quantifier": "every space (any low/high vectors, including degenerate coordinates) and every value", "why_tests_cant": "The claim is over a continuum of bounds and values; tests sample a handful.", "anchors": ["src/pymgrid/utils/space.py: ModuleSpace.normalize, denormalize, _shape_check, _get_spread"]}
{"id": "C02", "title": "Normalized range [0,1] is exactly the declared range", "statement": "When low < high in a coordinate, normalize maps [low, high] into [0,1] and denormalize maps [0,1] onto values inside [low, high]. When low = high the code substitutes a spread of one, so the normalized action 1 denormalizes to low+1, outside the declared range.", "quantifier": "every space and every value in range", "why_tests_cant": "The degenerate coordinate is one point in a continuum and no test visits it; the positive half is universally quantified.", "anchors": ["src/pymgrid/utils/space.py: ModuleSpace"]}
{"id": "C03", "title": "Requests beyond a module's limits are clipped, or refused, never silently exceeded", "statement": "With raise_errors=False a source module asked for x >= 0 provides exactly x clipped into [min_production, max_production] and a sink asked to take x >= 0 absorbs exactly min(x, max_consumption). With raise_errors=True an in-range request is served exactly and an out-of-range one raises ValueError leaving charge, step counter and log untouched (a genset has by then already made its status change).", "quantifier": "every module state, every request, both settings of raise_errors", "why_tests_cant": "Boundaries depend on the state; only a proof covers all states and requests.", "anchors": ["src/pymgrid/modules/base/base_module.py: step, _unnormalized_step, as_source, as_sink, _raise_error"]}
{"id": "C04", "title": "Battery charge stays within capacity forever", "statement": "If a battery is built with min_capacity <= initial charge <= max_capacity, then after any sequence of step() and reset() calls with any actions, min_capacity <= current_charge <= max_capacity and soc = current_charge/max_capacity, including when some of those calls raised. (Exact arithmetic.)", "quantifier": "every parameter set with 0 < efficiency <= 1, every finite call sequence", "why_tests_cant": "Invariant over unbounded histories.", "anchors": ["src/pymgrid/modules/battery_module.py: update, _update_state, max_production, max_consumption"]}
{"id": "C05", "title": "Battery energy accounting over any history", "statement": "After any sequence of successful steps, current_charge = initial charge + efficiency * (total absorbed_energy reported in info) - (total provided_energy reported in info)/efficiency.", "quantifier": "every battery with the default transition model, every action sequence", "why_tests_cant": "Needs induction over arbitrary histories.", "anchors": ["src/pymgrid/modules/battery_module.py: update, default_transition_model"]}
{"id": "C06", "title": "Battery rate limits", "statement": "In one step the internal charge never falls by more than max_discharge and never rises by more than max_charge, and the battery never charges in a step where it provided energy or vice versa.", "quantifier": "every battery state and action", "why_tests_cant": "Universally quantified over state and action.", "anchors": ["src/pymgrid/modules/battery_module.py: max_production, max_consumption, update"]}
{"id": "C07", "title": "Battery cost is linear in the internal energy moved", "statement": "The reward of each battery step is exactly -battery_cost_cycle * |change of current_charge|; over a history the total cost is battery_cost_cycle times the total variation of the charge.", "quantifier": "every battery, every action sequence", "why_tests_cant": "Quantifies over histories.", "anchors": ["src/pymgrid/modules/battery_module.py: get_cost, update"]}
{"id": "C08", "title": "A battery is never a net source of energy", "statement": "Over any history, total provided energy <= efficiency^2 * total absorbed energy + efficiency * (charge at start - charge at end); in particular a history that returns to its initial charge yields at most efficiency^2 of what was put in.", "quantifier": "every battery with the default model, every action sequence", "why_tests_cant": "A cycle that produced energy would need an adversarial sequence to show up.", "anchors": ["src/pymgrid/modules/battery_module.py"]}
{"id": "C09", "title": "Battery bounds under binary64 rounding", "statement": "With IEEE binary64 arithmetic current_charge still never drops below min_capacity on any history (the code clamps), but it can exceed max_capacity by rounding, after which a request to absorb energy raises AssertionError even though raise_errors=False.", "quantifier": "every binary64 history (lower bound); an explicit history (upper bound failure)", "why_tests_cant": "Rounding failures occur on isolated inputs that tests miss.", "anchors": ["src/pymgrid/modules/battery_module.py: _update_state", "src/pymgrid/modules/base/base_module.py: as_sink"]}
{"id": "C10", "title": "The normalized battery action space does not always cover the feasible range", "statement": "The declared action range is [-max_discharge/efficiency, max_charge*efficiency] although positive actions discharge. A normalized action in [0,1] can request every feasible discharge only if max_discharge*efficiency <= max_charge*efficiency (and symmetrically for charging); otherwise feasible production is unreachable through normalized actions.", "quantifier": "every battery and every normalized action", "why_tests_cant": "Needs all normalized actions to be unable to reach a feasible request.", "anchors": ["src/pymgrid/modules/battery_module.py: min_act, max_act"]}
{"id": "C11", "title": "Genset status predictions are always right", "statement": "In every reachable genset state, next_status(goal) equals the status after update_status(goal), step() never fails with the internal error 'next_status working incorrectly', both counters stay within [0, start_up_time] and [0, wind_down_time], and next_max_production/next_min_production equal the limits after the update.", "quantifier": "every start-up/wind-down time, allow_abortion setting and history of goals", "why_tests_cant": "State machine with counters; quantifies over all histories and parameters.", "anchors": ["src/pymgrid/modules/genset_module.py: update_status, next_status, next_max_production, next_min_production"]}
{"id": "C12", "title": "Genset start-up and wind-down take exactly the configured time", "statement": "Starting from a settled off genset, k consecutive on-requests turn it on iff k > start_up_time; from a settled on genset, k consecutive off-requests turn it off iff k > wind_down_time.", "quantifier": "every start_up_time, wind_down_time, k", "why_tests_cant": "Quantifies over all times and k.", "anchors": ["src/pymgrid/modules/genset_module.py: update_status, _non_instantaneous_update, _reset_up_down_times"]}
{"id": "C13", "title": "Genset abortion", "statement": "With allow_abortion=True, withdrawing a request before the change completes leaves the status unchanged and restarts the full delay. With allow_abortion=False the documentation promises that a started change completes; in fact a change that takes time never starts: an off genset with start_up_time > 0 stays off under every sequence of requests, and an on genset with wind_down_time > 0 stays on under every sequence of requests.", "quantifier": "every genset parameter set and goal history", "why_tests_cant": "State machine over all histories.", "anchors": ["src/pymgrid/modules/genset_module.py: _finish_in_progress_change, update_status"]}
{"id": "C14", "title": "Genset output is zero when off and between its running limits when on", "statement": "Each successful step provides 0 if the status after the status update is off, and otherwise an amount in [running_min_production, running_max_production].", "quantifier": "every genset, state and action", "why_tests_cant": "Quantifies over all states and actions.", "anchors": ["src/pymgrid/modules/genset_module.py: step, max_production, min_production"]}
{"id": "C15", "title": "Genset cost and emissions", "statement": "Each step's reward is -(fuel cost of the provided energy + cost_per_unit_co2 * co2_per_unit * provided energy) and the reported co2_production is co2_per_unit * provided energy, whether genset_cost is a number or a function.", "quantifier": "every genset, state and action, every cost function", "why_tests_cant": "Quantifies over functions and states.", "anchors": ["src/pymgrid/modules/genset_module.py: update, get_cost, get_co2, get_co2_cost"]}
{"id": "C16", "title": "Time series keep one sign and their magnitudes", "statement": "Constructing a load or renewable module from a series whose values are all >= 0 or all <= 0 stores the series with the magnitudes unchanged and one fixed sign; a mixed-sign series is rejected with ValueError.", "quantifier": "every series", "why_tests_cant": "Universally quantified over series.", "anchors": ["src/pymgrid/modules/base/timeseries/base_timeseries_module.py: _set_time_series, _sign_check"]}
{"id": "C17", "title": "Episode length", "statement": "A time-series module starting at initial_step with final_step f returns done=True on a step iff that step was taken at current_step >= f-1; a fresh microgrid therefore reports done for the first time on its (final_step - initial_step)-th run and every later run that returns reports done too; each successful step advances current_step by exactly one.", "quantifier": "every module, every number of steps and all actions", "why_tests_cant": "Quantifies over episode lengths and action sequences.", "anchors": ["src/pymgrid/modules/base/timeseries/base_timeseries_module.py: _done", "src/pymgrid/modules/base/base_module.py: step, _update_step"]}
{"id": "C18", "title": "Observations are the data and lie in the declared box", "statement": "While current_step is inside the series, the current part of the state of a load/renewable/grid module is the data row at current_step and its normalized observation lies in [0,1] in every coordinate.", "quantifier": "every series, step and forecaster", "why_tests_cant": "Quantifies over series and steps.", "anchors": ["src/pymgrid/modules/base/timeseries/base_timeseries_module.py: current_obs, _get_bounds"]}
{"id": "C19", "title": "Forecasts have the promised shape and bounds", "statement": "For every forecaster (oracle, Gaussian noise with any noise draw, user function with any output of the right width) a returned forecast has exactly forecast_horizon rows and each entry lies between the lower and upper bound of the observation space.", "quantifier": "every series, step, horizon, noise stream and user function", "why_tests_cant": "Quantifies over noise streams and user functions.", "anchors": ["src/pymgrid/forecast/forecaster.py: Forecaster.__call__, _pad, _clip"]}
{"id": "C20", "title": "Oracle forecasts tell the truth and pad past the end", "statement": "The oracle forecast at step t with horizon h lists the data at t+1..t+h; entries past the end of the data are the midpoint of the bounds.", "quantifier": "every series, step and horizon", "why_tests_cant": "Quantifies over series, steps and horizons.", "anchors": ["src/pymgrid/forecast/forecaster.py: OracleForecaster", "src/pymgrid/modules/base/timeseries/base_timeseries_module.py: forecast"]}
{"id": "C21", "title": "Reading a forecast never changes the data", "statement": "As long as a module's time series is the one its forecaster was built for, forecasting leaves the series unchanged; after assigning a new time_series with values outside the old bounds the next oracle forecast overwrites the stored data (clipping is done in place on a view).", "quantifier": "every series, step and forecaster; an explicit witness for the failure", "why_tests_cant": "Aliasing bug visible only after a setter and only for out-of-bound data.", "anchors": ["src/pymgrid/forecast/forecaster.py: _clip", "src/pymgrid/modules/base/timeseries/base_timeseries_module.py: time_series setter, forecast"]}
{"id": "C22", "title": "Observation length follows the horizon", "statement": "After construction, the state of a time-series module has (1+horizon)*columns entries and state_dict has the same number of keys; after set_forecaster the observation space has the new length, but until the next reset or step the state has (1+min(old, new horizon))*columns entries, so that normalizing it raises TypeError exactly when the new horizon is longer; after a reset it has (1+new horizon)*columns entries.", "quantifier": "every series and horizon", "why_tests_cant": "Depends on call history.", "anchors": ["src/pymgrid/modules/base/timeseries/base_timeseries_module.py: set_forecaster, forecast_horizon, _state_dict"]}
{"id": "C23", "title": "No energy is exchanged with the grid during an outage", "statement": "When the grid status at the current step is 0, max_production and max_consumption are 0 and a step with raise_errors=False exchanges exactly 0 energy at 0 cost and 0 CO2, whatever the action; otherwise imports are at most max_import and exports at most max_export.", "quantifier": "every grid, step and action", "why_tests_cant": "Quantifies over states and actions.", "anchors": ["src/pymgrid/modules/grid_module.py: max_production, max_consumption, update"]}
{"id": "C24", "title": "Grid cost and emissions", "statement": "A step importing e at import price p and CO2 intensity c is rewarded -(p*e + cost_per_unit_co2*c*e); a step exporting e at price q is rewarded q*e and reports no emissions.", "quantifier": "every grid, step and action", "why_tests_cant": "Quantifies over states and actions.", "anchors": ["src/pymgrid/modules/grid_module.py: get_cost, get_co2_cost, update"]}
{"id": "C25", "title": "Load and renewable accounting", "statement": "A load absorbs exactly the demand of the current step; a renewable provides x clipped to the available production and reports curtailment = available - used >= 0.", "quantifier": "every series, step and request", "why_tests_cant": "Quantifies over states and requests.", "anchors": ["src/pymgrid/modules/load_module.py", "src/pymgrid/modules/renewable_module.py"]}
{"id": "C26", "title": "Unbalanced energy is priced, never rewarded", "statement": "The unbalanced-energy module absorbs or provides exactly what is requested, with reward -loss_load_cost*x when providing x and -overgeneration_cost*x when absorbing x; with non-negative costs the reward is never positive and the module never refuses.", "quantifier": "every cost and request", "why_tests_cant": "Quantifies over costs and requests.", "anchors": ["src/pymgrid/modules/unbalanced_energy_module.py"]}
{"id": "C27", "title": "Every microgrid step balances", "statement": "When run() returns, the provided energy reported by the modules equals the absorbed energy reported by the modules; with the unbalanced-energy module present run() never fails for lack of balance, whatever the controls.", "quantifier": "every microgrid (any number and kind of modules), every state and control", "why_tests_cant": "Quantifies over compositions, states and actions.", "anchors": ["src/pymgrid/microgrid/microgrid.py: run", "src/pymgrid/microgrid/utils/step.py"]}
{"id": "C28", "title": "run() reports exactly the sum and disjunction of its modules' results", "statement": "The reward returned by run() without a reward shaping function is the sum of the rewards of the module steps it performed, done is true iff some module was done, and info contains each stepped module's info under its name in order.", "quantifier": "every microgrid, state and control", "why_tests_cant": "Quantifies over compositions.", "anchors": ["src/pymgrid/microgrid/microgrid.py: run", "src/pymgrid/microgrid/utils/step.py: append, output"]}
{"id": "C29", "title": "All modules advance in lockstep", "statement": "A successful run() with a control for every controllable module steps each module exactly once, so all modules that shared a current_step still share one (old+1).", "quantifier": "every microgrid and complete control", "why_tests_cant": "Quantifies over compositions and histories.", "anchors": ["src/pymgrid/microgrid/microgrid.py: run"]}
{"id": "C30", "title": "Incomplete controls", "statement": "Omitting the control of a controllable module makes run() raise ValueError, but fixed modules have already advanced (the failed call is not atomic); passing a control list shorter than the number of modules of that name silently skips the remaining ones, which then lag behind; superfluous entries are ignored.", "quantifier": "every microgrid and control", "why_tests_cant": "Failure atomicity and truncation need adversarial controls.", "anchors": ["src/pymgrid/microgrid/microgrid.py: run"]}
{"id": "C31", "title": "Slack merit order", "statement": "In every successful run the flexible modules come into play one after the other, a later one only when the earlier ones give (or take) all they can. With the default unbalanced-energy module, which comes last, lost load is reported only if every flexible source was used at its maximum, overgeneration only if every flexible sink was used at its maximum and no flexible source was drawn at all; never both in one step. An unbalanced-energy module the caller lists before a flexible grid is used before the grid.", "quantifier": "every microgrid with the built-in module types", "why_tests_cant": "Quantifies over compositions and actions.", "anchors": ["src/pymgrid/microgrid/microgrid.py: run", "src/pymgrid/modules/unbalanced_energy_module.py"]}
{"id": "C32", "title": "reset() rewinds time and logs but not physical state", "statement": "After reset() every module's current_step is its initial_step and all logs are empty; battery charge and genset status/counters are left as they were, so reset() after a run is not the freshly built microgrid.", "quantifier": "every microgrid and history", "why_tests_cant": "Quantifies over histories.", "anchors": ["src/pymgrid/microgrid/microgrid.py: reset", "src/pymgrid/modules/base/base_module.py: reset"]}
{"id": "C33", "title": "Logs are rectangular", "statement": "After any history of run() calls, every column of every log has as many entries as rows logged since the last reset; a column first seen at row k is filled with k missing values; a key that stops being logged produces a ragged log whose conversion fails.", "quantifier": "every history of log calls", "why_tests_cant": "Quantifies over histories.", "anchors": ["src/pymgrid/utils/logger.py: ModularLogger", "src/pymgrid/microgrid/microgrid.py: get_log"]}
{"id": "C34", "title": "Name collisions across module categories lose modules", "statement": "If two modules of different categories carry the same name, construction does not fail and the flat dictionary view shows only one of them; with distinct names the flat view contains every module exactly once.", "quantifier": "every list of modules", "why_tests_cant": "Needs particular names.", "anchors": ["src/pymgrid/modules/module_container.py: ModuleContainer, Container.to_dict, iterdict, get_attrs"]}
{"id": "C35", "title": "Construction rejects inconsistent step windows", "statement": "Microgrid construction succeeds only if all time-series modules agree on final_step and all modules agree on initial_step; with the default unbalanced-energy module, which starts at step 0, every other initial_step is refused; construction from a non-empty list without any time-series module fails; differing current_steps are accepted but then current_step raises ValueError.", "quantifier": "every list of modules", "why_tests_cant": "Quantifies over module lists.", "anchors": ["src/pymgrid/microgrid/microgrid.py: __init__, _get_module_initial_step, _get_module_final_step", "src/pymgrid/modules/module_container.py: get_attrs"]}
{"id": "C36", "title": "Trajectory functions give windows inside the configured range", "statement": "StochasticTrajectory and FixedLengthStochasticTrajectory: whenever they return, the window lies in the microgrid's range and (fixed length) has the requested length; every such window is drawn for some random draw; a stochastic range of at most two steps and a fixed length of at least the range are refused with ValueError. The constructor checks one window; reset() starts every module at the window's initial step and the episode is done exactly at the window's last step; an empty window makes reset() raise ValueError, except that a final step of 0 means the end of the data.", "quantifier": "every range and every random draw", "why_tests_cant": "The failing draw has low probability.", "anchors": ["src/pymgrid/microgrid/trajectory/stochastic.py", "src/pymgrid/microgrid/trajectory/deterministic.py", "src/pymgrid/microgrid/microgrid.py: _set_trajectory"]}
{"id": "C37", "title": "Containers partition the modules", "statement": "In a built microgrid each module is in exactly one of fixed/flex/controllable and exactly one of sources/sinks/source_and_sinks according to its type; to_list preserves the number of modules; modules of one name keep insertion order and are numbered 0..n-1.", "quantifier": "every list of modules", "why_tests_cant": "Quantifies over module lists.", "anchors": ["src/pymgrid/modules/module_container.py"]}
{"id": "C38", "title": "get_empty_action and sample_action have the shape run() needs", "statement": "get_empty_action has exactly one None slot per controllable module (with sample_flex_modules: per module other than a load) and nothing else; an action sampled with strict_bound=False is accepted by run() when the modules do not raise errors. With strict_bound=True the sampled action of a battery or grid, denormalized, is within its current limits, while a genset always raises TypeError.", "quantifier": "every microgrid and random draw", "why_tests_cant": "Quantifies over random draws and compositions.", "anchors": ["src/pymgrid/microgrid/microgrid.py: sample_action, get_empty_action"]}
{"id": "C39", "title": "Priority lists enumerate exactly the deployment orders", "statement": "get_priority_lists returns, without duplicates, exactly the sequences that mention each controllable source (or source-and-sink) module exactly once with one of its actions; removing redundant gensets removes exactly the lists containing the off action of a genset with zero minimum production.", "quantifier": "every set of controllable modules", "why_tests_cant": "n! growth.", "anchors": ["src/pymgrid/algos/priority_list/priority_list.py"]}
{"id": "C40", "title": "Priority-list dispatch is feasible and greedy", "statement": "The populated action asks each non-genset module for an amount within its production/consumption limits, never over-serves except through a genset's minimum production, and leaves net load unserved only if every module in the list is at its maximum.", "quantifier": "every microgrid state and priority list", "why_tests_cant": "Quantifies over states.", "anchors": ["src/pymgrid/algos/priority_list/priority_list.py: _populate_action"]}
{"id": "C41", "title": "Rule-based control orders by marginal cost", "statement": "The rule-based control's default list is sorted by increasing marginal cost; for a genset with positive minimum production it deploys the off action.", "quantifier": "every microgrid", "why_tests_cant": "Quantifies over microgrids.", "anchors": ["src/pymgrid/algos/rbc/rbc.py", "src/pymgrid/algos/priority_list/priority_list_element.py"]}
{"id": "C42", "title": "Discrete environment actions", "statement": "Every integer in range is executed as its priority list; an out-of-range integer raises ValueError without touching the modules but leaves an extra row in the action log, so a later get_log fails.", "quantifier": "every environment and integer", "why_tests_cant": "Needs invalid action followed by logging.", "anchors": ["src/pymgrid/envs/discrete/discrete.py"]}
{"id": "C43", "title": "Continuous environment", "statement": "ContinuousMicrogridEnv.step fails for every action as soon as the microgrid has a load (changing nothing) or a controllable module; unless a grid has been made a fixed module the action space is empty, and with flat spaces the environment cannot be constructed.", "quantifier": "every microgrid with a load and every action", "why_tests_cant": "A test can show one failing action, not that none works.", "anchors": ["src/pymgrid/envs/continuous/continuous.py", "src/pymgrid/envs/base/base.py"]}
{"id": "C44", "title": "Reward shaping values", "statement": "With PVCurtailmentShaper, whenever run() succeeds, the reward is minus the sum of the curtailments of the modules named 'pv' (0 if there is none, whatever a renewable with another name curtails). With BatteryDischargeShaper it is the sum of what the modules named 'battery' provided, less what modules named 'unbalanced_energy' provided, divided by what the modules named 'load' absorbed; it lies between -1 and 1 up to rounding, is 0 without load, and the batteries count as 0 altogether as soon as one of them charged. The balancing module added by default has another name and is never counted; a discharge exceeding the load makes run() raise AssertionError with some modules already stepped.", "quantifier": "every microgrid built from any modules, every control and every state reached by any history of calls", "why_tests_cant": "The value depends on the composition, the names, and what each module did in the step, over all histories.", "anchors": ["src/pymgrid/microgrid/reward_shaping/base.py: sum_module_val", "src/pymgrid/microgrid/reward_shaping/pv_curtailment_shaper.py: PVCurtailmentShaper", "src/pymgrid/microgrid/reward_shaping/battery_discharge_shaper.py: BatteryDischargeShaper", "src/pymgrid/microgrid/utils/step.py: MicrogridStep"]}
{"id": "C45", "title": "Serialization round trip", "statement": "Dumping a module that holds no user function and loading it back restores its class, all parameters, its state (charge, genset status, time series, clock), its name and the contents of its log; the stored forecast is the one of the initial step, and resetting the loaded module gives what resetting the original gives. A module with a user function (transition model, fuel curve, forecaster) cannot be dumped (RepresenterError). Dumping and loading a microgrid whose names do not collide and whose modules agree on the step window restores all modules under their names in order, the step window, the trajectory function and the balance log, but not the reward shaping function; to a file this holds if no two modules are of one class (they would share files). If the dumped object has a non-empty log, no step or run of the loaded one returns until it is reset. A forecaster set with set_forecaster is not restored.", "quantifier": "every module and microgrid after any history, dumped inline or to files over any existing directory", "why_tests_cant": "Depends on all histories, module compositions and the content of the directory.", "anchors": ["src/pymgrid/utils/serialize.py", "src/pymgrid/modules/base/base_module.py: serialize, deserialize", "src/pymgrid/microgrid/microgrid.py: serialize, deserialize"]}
{"id": "C46", "title": "set_module_attr is exact", "statement": "set_module_attr(name, value) changes that attribute on exactly the modules that have it, and raises AttributeError, changing nothing, if no module has it.", "quantifier": "every microgrid and attribute", "why_tests_cant": "Quantifies over compositions.", "anchors": ["src/pymgrid/microgrid/microgrid.py: set_module_attr"]}
{"id": "C47", "title": "Microgrid-level normalization", "statement": "to_normalized and from_normalized of a microgrid convert the j-th entry under a name with the j-th module of that name and are mutually inverse; names of no module and entries beyond the last module are dropped without notice.", "quantifier": "every microgrid and action", "why_tests_cant": "Quantifies over actions.", "anchors": ["src/pymgrid/microgrid/microgrid.py: to_normalized, from_normalized", "src/pymgrid/utils/space.py: MicrogridSpace"]}
{"id": "C48", "title": "Observation of the base environment", "statement": "Without observation keys the flat observation is the normalized states of the modules, name after name in alphabetical order, each entry in [0, 1], and has the advertised length. With observation keys it contains exactly the requested state entries (in state order if the keys are sorted), has the advertised length iff no key is repeated, and is never produced if some module has a one-entry state; unknown keys raise NameError.", "quantifier": "every environment and key list", "why_tests_cant": "Quantifies over key lists.", "anchors": ["src/pymgrid/envs/base/base.py: _get_obs, _get_observation_space"]}
{"id": "C49", "title": "Genset life cycle", "statement": "The genset's observable state (status, goal, steps until up, steps until down) is always that of a four-phase life cycle off / starting up / on / winding down, and each on- or off-request moves it to exactly the next phase of that cycle for its start-up time, wind-down time and abortion flag; all other calls leave it alone.", "quantifier": "all parameters, all histories, the next call arbitrary", "why_tests_cant": "Quantifies over all histories and delays.", "anchors": ["src/pymgrid/modules/genset_module.py: GensetModule.update_status, GensetModule.step"]}
{"id": "C50", "title": "Lenient modules never refuse", "statement": "With raise_errors=False and library forecasters, at a step inside the data: a battery serves any scalar request, normalized or not; a grid any request; a renewable any request >= 0; a load any request <= 0 and the empty action; the unbalanced module any request (non-negative costs); a genset any pair of a goal in [0,1] and an energy >= 0.", "quantifier": "all parameters, all histories, all such requests", "why_tests_cant": "Quantifies over all states and requests.", "anchors": ["src/pymgrid/modules/base/base_module.py: BaseMicrogridModule.step, as_source, as_sink", "src/pymgrid/modules/battery_module.py: BatteryModule", "src/pymgrid/modules/genset_module.py: GensetModule.step"]}
{"id": "C51", "title": "Battery and genset observations lie in the declared box", "statement": "After any history the state of a battery (default transition model, positive max_capacity, initial charge within capacity) and of a genset lies in its observation space, and its normalized observation lies in [0,1] in every coordinate.", "quantifier": "all parameters, all histories", "why_tests_cant": "Quantifies over all histories.", "anchors": ["src/pymgrid/modules/battery_module.py: min_obs, max_obs, _state_dict", "src/pymgrid/modules/genset_module.py: min_obs, max_obs, _state_dict"]}
{"id": "C52", "title": "A lenient microgrid cannot fail while it has data", "statement": "A microgrid with an unbalanced-energy module, built from modules with sensible parameters (initial charge within capacity, non-negative rates, times and prices, library forecasters) that do not raise errors, after any history of calls: run() returns for every control that names each controllable module and holds values of the right shape, as long as every time-series module has data at its current step; hence any number of such runs returns if there is data for as many steps.", "quantifier": "every such microgrid, history and sequence of controls", "why_tests_cant": "Absence of exceptions over all states and inputs.", "anchors": ["src/pymgrid/microgrid/microgrid.py: run", "src/pymgrid/modules/base/base_module.py: step, as_source, as_sink"]}
{"id": "C53", "title": "Batteries of a microgrid stay within capacity", "statement": "Whatever calls are made on a microgrid (failed ones included), every battery built with its initial charge within capacity keeps its charge between min and max capacity and its state of charge equal to charge over max capacity. (Exact arithmetic.)", "quantifier": "every microgrid and history of run, reset and step setter calls", "why_tests_cant": "Quantifies over all histories.", "anchors": ["src/pymgrid/modules/battery_module.py", "src/pymgrid/microgrid/microgrid.py: run, reset"]}
{"id": "C54", "title": "Rule-based control cannot fail while there is data", "statement": "On a microgrid as in C52, stepping the rule-based control n times with any valid priority list never raises as long as every time-series module has data for n more steps, whatever prices the list was sorted by.", "quantifier": "every such microgrid, history, priority list and number of steps", "why_tests_cant": "Absence of exceptions over all states.", "anchors": ["src/pymgrid/algos/rbc/rbc.py: run", "src/pymgrid/algos/priority_list/priority_list.py: _populate_action"]}
{"id": "C55", "title": "Building a microgrid from a microgrid", "statement": "from_microgrid on a microgrid (any history, no trajectory function, names not shared between categories, modules that agree on the step window) succeeds; the new microgrid holds the same modules under the same names in the same order and state, their step window, the same reward shaping function, and an empty balance log.", "quantifier": "every such microgrid after any history", "why_tests_cant": "Quantifies over all compositions and histories.", "anchors": ["src/pymgrid/envs/base/base.py: from_microgrid", "src/pymgrid/modules/module_container.py: get_subcontainers, to_tuples"]}
{"id": "C56", "title": "Non-modular runs balance energy", "statement": "Whenever NonModularMicrogrid.run(control) returns, the production it records for that step balances: battery discharge, import, genset, consumed PV and lost load equal load, battery charge, export and overgeneration, exactly, or up to 1/1000 with all PV used and no lost load or overgeneration recorded. Lost load and overgeneration are not negative, load is lost only when all PV is used, and PV splits into consumed and curtailed.", "quantifier": "every microgrid state, control dictionary and architecture", "why_tests_cant": "Ranges over all states, real-valued controls and data.", "anchors": ["src/pymgrid/_deprecated/non_modular_microgrid.py: run, _check_control, _record_production"]}
{"id": "C57", "title": "Non-modular runs keep to the limits", "statement": "The recorded battery, grid and genset production of a run is the requested control brought into range: between 0 and what the battery can take or give at its state of charge, the grid's power limits, the genset's maximum; the genset's minimum applies to requests above 1. The grid limits hold whether or not the grid is up.", "quantifier": "every microgrid state and control", "why_tests_cant": "Ranges over all states and real-valued controls.", "anchors": ["src/pymgrid/_deprecated/non_modular_microgrid.py: run, _check_control, _record_production"]}
{"id": "C58", "title": "Non-modular battery state of charge", "statement": "After a run the state of charge is the old one plus charge times efficiency minus discharge over efficiency, over capacity; with a grid, charge and discharge are those recorded; without one they are those requested. With a grid, efficiency in (0,1] and a start within the limits, the state of charge stays within the limits through any history of calls, failed ones included. Without a grid it can leave them.", "quantifier": "every microgrid and history of run, reset, train_test_split and setter calls", "why_tests_cant": "Quantifies over all histories.", "anchors": ["src/pymgrid/_deprecated/non_modular_microgrid.py: _update_status, run, reset"]}
{"id": "C59", "title": "Non-modular costs and emissions", "statement": "For a microgrid with the generator's parameters and columns, after any history: a run that returns adds to the record the emissions of genset and import, and a total cost that is lost load, overgeneration, fuel, import, export (as income), battery cycles and emissions, each at its price at that step.", "quantifier": "every such microgrid, history and control", "why_tests_cant": "Ranges over all states and inputs.", "anchors": ["src/pymgrid/_deprecated/non_modular_microgrid.py: _record_cost, _record_co2, run"]}
{"id": "C60", "title": "Non-modular time", "statement": "For such a microgrid after any history with split limits inside the data: a run that returns moves to the next row, reading its values and those of the row after, or on the last row marks the episode done and stays; the returned status holds the next row's values but the current row's hour; after a reset, n runs end at row min(n, end) and done holds exactly when n exceeds the end; a reset forgets the history except for split, horizon, emission price and epoch records, so later runs give the same results. The next grid values are wrong before the first run.", "quantifier": "every such microgrid and history", "why_tests_cant": "Quantifies over all histories and lengths.", "anchors": ["src/pymgrid/_deprecated/non_modular_microgrid.py: update_variables, run, reset, train_test_split, set_horizon"]}
{"id": "C61", "title": "When non-modular calls raise", "statement": "For such a microgrid with series of equal length, after any history: a run with every control it needs raises AssertionError exactly when sources equal sinks without PV though there is PV; otherwise it returns, except that when training or testing, the step onto the last row raises IndexError. A reset returns unless training or testing on one row. penalty() never returns.", "quantifier": "every such microgrid, history and control", "why_tests_cant": "Absence of exceptions over all states and inputs.", "anchors": ["src/pymgrid/_deprecated/non_modular_microgrid.py: run, _check_control, reset, penalty, _record_production, update_variables"]}
{"id": "C62", "title": "The modular copy of a non-modular microgrid", "statement": "to_modular, if it returns, gives a microgrid with exactly one module for the load, one for unbalanced energy and one for each of PV, battery, genset and grid that the non-modular one has, and no other names; the modules are new, at step 0; the load series is negated and the PV series positive, the grid's four columns are the four series; forecasts are perfect over horizon-1 steps; the battery, genset, grid and unbalanced-energy modules have the capacities, limits, efficiency and costs of the parameters; the battery has the state of charge shown now. With plausible parameters and series of equal length it returns. Nothing else of the non-modular microgrid, such as where it is in its data, matters.", "quantifier": "every non-modular microgrid", "why_tests_cant": "Ranges over all data, parameters and architectures.", "anchors": ["src/pymgrid/convert/convert.py: to_modular", "src/pymgrid/convert/get_module.py: get_load_module, get_pv_module, get_battery_module, get_genset_module, get_grid_module, get_unbalanced_energy_module"]}
{"id": "C63", "title": "The modular copy behaves like the non-modular microgrid", "statement": "Take a newly built non-modular microgrid with plausible data and PV and its to_modular copy, and give both the same controls, step after step, each within the limits of both (not charging and discharging, nor importing and exporting, at once; nothing from or to a grid that is down; the genset off or above its minimum). Then the copy accepts every control the original accepts, serves the same load, exchanges the same energy with battery, grid and genset and has the same state of charge; PV used, PV curtailed, lost load and excess agree to 1/1000 kWh, and exactly unless the original treats a gap below 1/1000 as balanced. The reward is minus the recorded cost, except that battery wear is charged for the energy inside the battery instead of outside. With other controls they differ.", "quantifier": "every plausible microgrid, every history of such controls of any length", "why_tests_cant": "Relates two implementations over all data and all histories.", "anchors": ["src/pymgrid/convert/convert.py: to_modular", "src/pymgrid/_deprecated/non_modular_microgrid.py: run", "src/pymgrid/microgrid/microgrid.py: run", "src/pymgrid/modules/battery_module.py: update"]}
{"id": "C64", "title": "The non-modular copy of a modular microgrid, and the way back", "statement": "Convert a modular microgrid, in any reachable state, to a non-modular one. This succeeds exactly when no two modules share a name, no two are of the same class, there is one load and a renewable module, load and renewable have at least two rows and data at the current step, the grid has data, the genset can produce something at a linear cost, and all time series forecast equally far; when names or classes are shared or there is no load, the error is a ValueError. The copy has the modules' series, capacities, limits, costs, state of charge and horizon, starts at step 0, and can be run exactly if the original has an unbalanced-energy module and a grid or a genset. Its load series has the modules' negative sign, so the copy's demand is not the original's. A non-modular microgrid converted there and back keeps its architecture, PV and grid series, parameters and state of charge; its load comes back negated.", "quantifier": "every reachable modular microgrid whose names are not shared across types of module, every non-modular microgrid, every rounding and every random genset curve", "why_tests_cant": "Ranges over all sets of modules with all data and over all histories before the conversion.", "anchors": ["src/pymgrid/convert/convert.py: to_nonmodular", "src/pymgrid/convert/to_nonmodular_ops.py: check_viability, add_params_from_module", "src/pymgrid/convert/convert.py: to_modular"]}
{"id": "C65", "title": "What the optimizer of the model predictive control is asked", "statement": "For any microgrid with data as long as the horizon, the values of the optimizer's variables satisfy the constraints of its program exactly when they describe a plan: in every step of the horizon energy from genset, grid, battery, used PV and lost load equals load, export and charging; the state of charge follows from charging and discharging with the efficiency and stays within its limits; every amount is nonnegative and within the limit of its part (import and export times the grid's status, curtailment up to the PV, loss up to the load); and the genset is off, or on between its minimum and maximum. The objective is the sum over the steps of genset, import, export, battery wear and lost-load costs, so the best solutions are the cheapest plans.", "quantifier": "every controller parameters, every horizon, every vector of data of that length, every assignment of values to the variables", "why_tests_cant": "The matrices grow with the horizon; a test looks at one horizon and cannot range over all real vectors.", "anchors": ["src/pymgrid/algos/mpc/mpc.py: _create_problem, _set_parameters"]}
{"id": "C66", "title": "The controller and its microgrid", "statement": "A model predictive controller is made for a modular microgrid exactly when the microgrid can be converted to a non-modular one, has a battery whose name is 'battery' and an unbalanced-energy module, and, if it has no genset, no negative cycle or lost-load cost. In any later state of the microgrid the program it poses has the modules' current and forecast load, PV and grid prices, their limits and costs and the current state of charge; the grid counts as up whatever its status. With neither grid nor genset posing it raises RuntimeError. With sensible parameters the program always has a solution.", "quantifier": "every modular microgrid whose names are not shared across types, every reachable state of it", "why_tests_cant": "Ranges over all sets of modules with all data and over all histories.", "anchors": ["src/pymgrid/algos/mpc/mpc.py: __init__, _verify_microgrid, _parse_modular_microgrid, _get_modular_state_values, _get_modules"]}
{"id": "C67", "title": "The first step of the predicted plan is what the microgrid does", "statement": "One step of a model predictive controller on a microgrid whose modules clip rather than raise: if the optimizer returns a solution of its program, the microgrid is run on the first step of the plan (battery, grid and genset; nothing else) and the run returns. If that first step neither charges and discharges nor buys and sells at once, takes no more out of the battery's store than its limit, the genset has no start-up or wind-down times and the grid is controllable and up or unused, then every module does exactly what the plan says (curtailment makes up for planned loss), the battery ends at the planned state of charge, and the reward is minus the cost of these amounts: wear for the energy inside the battery, import with CO2 at the grid's own cost, export as an income. Without such conditions the plan need not be followed. If the optimizer finds no solution the step raises TypeError and changes nothing.", "quantifier": "every microgrid with sensible parameters, every reachable state of it within its data, every solver, every solution", "why_tests_cant": "Ranges over all microgrids, states and all solutions a solver may return.", "anchors": ["src/pymgrid/algos/mpc/mpc.py: _run_mpc_on_modular, _set_and_solve, _extract_modular_control", "src/pymgrid/microgrid/microgrid.py: run"]}
{"id": "C68", "title": "What the cheapest predicted plans look like", "statement": "Take any plan of least cost (the optimizer's best solutions, C65). In each of its steps energy is not both bought and sold (if the prices add up to more than nothing), no load is lost while PV is curtailed, PV is not curtailed while energy is bought at a positive price, and load is lost only when import is at its limit (if lost load is dearer). A running genset goes to its maximum before load is lost or dearer energy is bought, and down to its minimum before cheaper energy is left in the grid or PV is curtailed. Where the export price is positive nothing is sold unless all PV is curtailed and a running genset is at its minimum: export is treated as an expense, so surplus PV is thrown away rather than sold. With wear and an efficiency of at most 1 the battery is not charged and discharged at once, except to get rid of energy. In the last step of the horizon the battery is charged only to get rid of energy, and it is drawn on as far as possible before energy dearer than wear is bought or load lost.", "quantifier": "every equipment, every horizon, all expected loads, PV and prices, every plan of least cost, every step of it", "why_tests_cant": "Optimal plans over unbounded horizons with real quantities cannot be enumerated.", "anchors": ["src/pymgrid/algos/mpc/mpc.py: _create_problem, _set_parameters, _set_and_solve"]}
{"id": "C69", "title": "A whole run of the model predictive controller", "statement": "Take a microgrid built from fresh modules that clip rather than raise, with sensible parameters, a grid or a genset, and data for its whole window, and a controller made for it. From any state, a run rewinds the microgrid, then makes exactly as many steps as asked for (without a number: as many as the window has), but not more than the window has, and returns a log with exactly one row per step for every module; no exception is raised, provided that the optimizer returns a solution for each program posed, and every program posed has one. Asking for more steps than the shortest series has rows raises AssertionError and changes nothing.", "quantifier": "every such microgrid, every state reached by runs and resets, every number of steps, every solver that finds solutions where there are some", "why_tests_cant": "Ranges over all microgrids, histories, run lengths and solver answers.", "anchors": ["src/pymgrid/algos/mpc/mpc.py: _run_mpc_on_modular, _get_num_iter, run", "src/pymgrid/microgrid/microgrid.py: run, reset, get_log"]}
{"id": "C70", "title": "What the rule-based control of a non-modular microgrid decides", "statement": "For a microgrid with PV and a battery, in every step of its data with a nonnegative load and PV and a grid status of 0 or 1, the rule-based control reaches a decision. It charges and discharges the battery within its limits and never both, imports or exports but not both and neither when the grid is down, charges and exports PV energy only, and splits the PV into used and curtailed. PV serves the load first. Then, with the grid up, the battery is used before the grid if the export price divided by the squared efficiency is below the import price, else the grid alone; with the grid down the battery gives or takes all it can. Whenever the grid is up or PV and battery suffice, supply equals use; with neither grid nor genset exactly the remainder is short and loss_load is 1. If only the genset can serve the load: it covers the remainder when that exceeds its minimum power; otherwise it is left off and the supply is short by exactly the minimum power although loss_load is 0; and if the load is below the minimum power, twice the minimum is asked of it and PV and battery stay unused. Without a battery any grid or genset makes the control raise KeyError.", "quantifier": "every non-modular microgrid with PV and a battery, every step of its data, every recorded state of charge, every such load, PV, price and status", "why_tests_cant": "Real-valued loads, states of charge, prices and limits; the three genset cases have boundaries that example data miss.", "anchors": ["src/pymgrid/algos/rbc/_nonmodular_rbc.py: _generate_priority_list, _run_priority_based, run_rule_based"]}
{"id": "C71", "title": "A whole run of the rule-based control of a non-modular microgrid", "statement": "Whatever was done before with a non-modular microgrid with PV and a battery, the rule-based control returns records for as many steps as asked for (without a number: all rows but the last), less the horizon, provided loads are positive, PV nonnegative, grid statuses 0 or 1 and parameters sensible; a load of zero can make it raise. The records are those of the microgrid with exactly one more row per step in every column; the records of a shorter run are the beginning of those of a longer one. In each step what was decided for its row of data is carried out within the limits, sources balance sinks, the cost is the bill of the step, and the state of charge follows what was recorded and stays within its limits, with or without a grid. No energy is produced in vain and the load is met when the grid is up and its limit suffices, when PV and battery suffice, or when the genset is needed for more than its minimum and not more than its maximum power; for less than its minimum load is lost.", "quantifier": "every such microgrid, every history of calls before, every length of the run, every step of it, all data", "why_tests_cant": "Unbounded run lengths and histories; the invariants must hold in every step.", "anchors": ["src/pymgrid/algos/rbc/_nonmodular_rbc.py: run_rule_based", "src/pymgrid/_deprecated/non_modular_microgrid.py: _record_production, _record_co2, _record_cost, _update_status"]}
{"id": "C72", "title": "The rule-based control returns what running its decisions leaves", "statement": "After a reset, on all of its data, a non-modular microgrid with a grid can be run step by step with the decisions of the rule-based control: every run returns, and the actions, production, costs, emissions and, except for the hour, the state that it then holds are exactly those that the rule-based control returns. Without a grid this is false: the state of charge differs.", "quantifier": "every such microgrid, every history before the reset, every length, all data", "why_tests_cant": "An equivalence of two executions of unbounded length.", "anchors": ["src/pymgrid/algos/rbc/_nonmodular_rbc.py: run_rule_based", "src/pymgrid/_deprecated/non_modular_microgrid.py: run, reset"]}
{"id": "C73", "title": "What the predictive controller asks for a non-modular microgrid", "statement": "A controller can be made for a non-modular microgrid with a battery, plausible parameters and a positive horizon; without a horizon making it raises ValueError. In every step of a run, whatever was done with the microgrid before, the solutions of the program posed are exactly the plans for the next rows of the data (as many as the horizon) that start with the state of charge the run recorded last and keep to the power limits, the genset's minimum and maximum, the state of charge limits and the balance of supply and use, import and export only while the grid is up; the objective is what fuel, CO2, import, export, wear and lost load cost. On sensible data every program posed has a solution. If the solver reports none, the run raises TypeError (the code's fallback to the previous decisions is never reached).", "quantifier": "every such microgrid, every history of calls before, every step of a run, every solver", "why_tests_cant": "Equivalence of a generated program with a set of plans over real numbers, for every horizon and state.", "anchors": ["src/pymgrid/algos/mpc/mpc.py: __init__, _parse_nonmodular_microgrid, _create_problem, _set_parameters, _set_and_solve, _extract_control_dict, _run_mpc_on_sample", "src/pymgrid/utils/DataGenerator.py: return_underlying_data"]}
{"id": "C74", "title": "A whole run of the predictive controller on a non-modular microgrid", "statement": "A run resets the microgrid and returns records with exactly one more row per step in every column, for as many steps as asked for (without a number: the rows of the data in use less the horizon; more are refused with AssertionError); the records of a shorter run are the beginning of those of a longer one. In each step the first step of the plan found is carried out within the limits, sources balance sinks, and the cost is the bill of the step. Imports, exports, genset and discharge are recorded as planned, the charge as planned up to (maximum charge - charge) * capacity * efficiency. If the charge fits, the recorded state of charge is the planned one, nothing is produced in vain, and the recorded cost is the planned one less twice the export payments and less the cost of loss that PV could cover; a plan may charge more, and is then not carried out. The state of charge stays within its limits whatever the solver answers. If all programs are solved, the run returns unless a plan balances the load without using PV although there is some: then it raises AssertionError, which can happen for a cheapest plan.", "quantifier": "every such microgrid, every history of calls before, every number of steps, every solver, every step of a run", "why_tests_cant": "Unbounded run lengths and histories, and arbitrary answers of the solver.", "anchors": ["src/pymgrid/algos/mpc/mpc.py: run, _run_mpc_on_sample, _extract_control_dict", "src/pymgrid/_deprecated/non_modular_microgrid.py: reset, _record_production, _record_co2, _record_cost, _update_status"]}
{"id": "C75", "title": "The sample average approximation", "statement": "A run on a group of samples (forecasts of load, PV and grid status) returns records with exactly one more row per step in every column, for as many steps as asked for (without a number: the rows of the shortest sample less the horizon; more are refused with ValueError and leave the samples as they are). In step k row k of every sample is overwritten with the actual data and the later rows are kept; for every sample the program is solved whose solutions are the plans for its rows from k on, starting with the last recorded state of charge; and of one plan the first step is carried out within the limits, with sources balancing sinks and the cost being the bill of the step. The plan chosen is one whose cost has the rank floor(n * percentile) among those of the n samples, where the cost is that of loss, fuel and import less the export payments; the program's own objective is that plus wear, emissions and twice the export payments. A percentile is accepted if and only if it is in [0, 1), so not 1. The state of charge stays within its limits. What is shown as the load, PV and grid status of the next row are those of the step itself. Running on a forecast does nothing.", "quantifier": "every such microgrid, every history of calls before, every group of samples, every percentile, every number of steps, every solver, every way of partitioning", "why_tests_cant": "Unbounded run lengths, arbitrary samples and solver answers; the rank must be right for any number of samples.", "anchors": ["src/pymgrid/algos/saa/saa.py: run_mpc_on_group, determine_optimal_actions, run_deterministic_on_forecast, __init__", "src/pymgrid/algos/mpc/mpc.py: mpc_single_step", "src/pymgrid/algos/Control.py: HorizonOutput, ControlOutput.append"]}
{"id": "C76", "title": "The sample average approximation with perfect samples is predictive control", "statement": "If all samples predict the data exactly and the solver answers the same program the same way, then on a microgrid that was reset, for any percentile in [0, 1) and any number of steps that both allow, the sample average approximation returns if and only if the predictive controller does, and then both record the same actions, production, costs and emissions and, except for the columns load, pv and grid_status, the same states.", "quantifier": "every such microgrid, every history of calls before, every group of perfect samples, every number of steps, every such solver", "why_tests_cant": "An equivalence of two executions of unbounded length.", "anchors": ["src/pymgrid/algos/saa/saa.py: run_mpc_on_group", "src/pymgrid/algos/mpc/mpc.py: _run_mpc_on_sample, mpc_single_step"]}
{"id": "C77", "title": "What the benchmarks print", "statement": "Whatever runs were made before with a microgrid and its benchmarks, describing them prints, for each algorithm that was run and asked for (predictive, rule-based, sample average, in this order), the rounded sum of its recorded costs: over all steps; with a ratio r in [0, 1], over the last floor(r * steps) steps; with an index of at most the number of steps, before and from it (a negative one counts from the end), which together make up all steps. Running the predictive control resets the microgrid and records one cost for every step; running the sample average approximation does not reset it and records one more cost for every step than the microgrid has; a run that raises leaves the benchmarks as they are. Unknown algorithms, a missing, double or out of range split and outputs of different lengths are refused with ValueError, and describing before anything was run raises IndexError. The rule-based benchmark, running all benchmarks, print_benchmark_cost and the benchmark of a modular microgrid never succeed.", "quantifier": "every history of calls on a microgrid and its benchmarks, every list of recorded costs, every ratio, index and selection of algorithms", "why_tests_cant": "Sums over recorded costs of any length and any split, after any history; that a call can never succeed is a statement about all states.", "anchors": ["src/pymgrid/algos/Control.py: Benchmarks", "src/pymgrid/_deprecated/non_modular_microgrid.py: print_benchmark_cost"]}
{"id": "C78", "title": "Outputs of control algorithms", "statement": "An output needs names, tables and the name of its algorithm (else TypeError), and the names must include action, status, production, cost and co2 (else ValueError); it then has the table given under each name. Two outputs are equal exactly if their tables of costs have the same columns with the same entries; they cannot be ordered, and equality does not compare sums of costs. A frame of an output has its columns, all as long as the longest, filled up with NaN; the output itself is filled up too, so that costs described afterwards are NaN.", "quantifier": "all names, tables and outputs, columns of any length", "why_tests_cant": "Arbitrary tables; the effect on later calls is only seen when calls are combined.", "anchors": ["src/pymgrid/algos/Control.py: ControlOutput"]}
{"id": "C79", "title": "Random samples of the grid's status", "statement": "Sampling accepts exactly data of zeros and ones (else ValueError) and the types 'naive' and 'markov' (else TypeError). With 'markov', the chance to go from one status to another is its share of the transitions from that status in the data (a status that never occurs before the last row is kept). Every sample has as many rows as the data, starts with a status that occurs before the last row and has only transitions that occur in the data; every such series can be drawn; a status that never changes is sampled as it is. With 'naive', each row is 1 with the share of ones. Data of one row are accepted but cannot be sampled (that they can is refuted).", "quantifier": "all series of zeros and ones of any length and all numbers that are drawn", "why_tests_cant": "All random draws and data of any length; that every possible series can be drawn is not observable in tests.", "anchors": ["src/pymgrid/utils/DataGenerator.py: NoisyGridData.__init__, learn_distribution, sample"]}
{"id": "C80", "title": "Random samples of loads", "statement": "With data that are whole days, or longer than a week, row i of a sample is the average of the data at the same hour of the same day of the week, plus their standard deviation times the scale and a standard normal number; where this is negative, it is the smallest value of the data; no value is negative. Data that are not negative can always be sampled with a scale of at least 0, and data that repeat every week are then sampled as they are. If a negative value is drawn and the data have one, AssertionError is raised; other distributions, negative scales and a single row are refused with ValueError. Whole days give as many rows as the data, at most a year of 365 days. Otherwise there are more rows than the data (that there never are is refuted).", "quantifier": "all loads of such lengths, all scales and all numbers that are drawn", "why_tests_cant": "All random draws and data of any length.", "anchors": ["src/pymgrid/utils/DataGenerator.py: NoisyLoadData.__init__, data_munge, sample, _check_sample"]}
{"id": "C81", "title": "Random samples of the PV", "statement": "A sample with new peaks can be drawn if and only if the data are whole days with sun (and the arguments are sensible and the curve of low maxima is below that of high ones). Then on each day it follows the parabola that is 0 at dawn and dusk of the data and has its peak in the middle, drawn between the two curves there, if asked for moved towards the highest value of the day; each value gets normal noise in proportion to it and is cut off at 0, and if asked for is moved towards the data by a ratio. So nothing is sampled at night, without noise no value is above the upper curve, and with the ratio 1 the sample is the data. The baseline is kept: samples without new peaks are drawn around it, change nothing, and are refused with ValueError if there is none. The first day without sun raises IndexError and keeps nothing (that all data of whole days can be sampled is refuted); unknown noise raises ValueError, and moving data under another column name KeyError.", "quantifier": "all data of any length, all arguments, curves and numbers that are drawn", "why_tests_cant": "All random draws, curves and data of any length; the shape of every day must be right.", "anchors": ["src/pymgrid/utils/DataGenerator.py: NoisyPVData.sample, _sample_parabola, _check_sample"]}
{"id": "C82", "title": "Forecasts and samples of a microgrid", "statement": "For a microgrid whose data are whole days with sun, with loads that are not negative and a grid status of zeros and ones, forecasts can be made and from them any number of samples. All columns of a sample have the rows of the data, at most a year; loads and PV are not negative, the PV is 0 at night, the grid's status is 0 or 1 with transitions of its forecast; the samples are what the sample average approximation needs, and drawing them changes nothing else. Presets exist for accuracies of 50, 70 and 85 (else ValueError) and move the PV towards the data by 1/2, 13/20 and 1: the last forecast is the data. The first run of the algorithm is one on new samples; later ones use the stored samples by default, whatever else is asked for, and these contain the actual data of all rows that were run. The error of a forecast is the average relative error where the data are not 0, is 0 only for a perfect forecast and infinite if a row is 0 and its forecast is not. A microgrid with a day without sun cannot be given to the algorithm (IndexError).", "quantifier": "every such microgrid, all arguments, any number of samples, all numbers that are drawn, all solvers and steps of runs", "why_tests_cant": "All random draws, data of any length, any number of samples; what a second run knows depends on the whole first run.", "anchors": ["src/pymgrid/utils/DataGenerator.py: SampleGenerator, ForecastArgSet.get_preset", "src/pymgrid/algos/saa/saa.py: __init__, run"]}
{"id": "C83", "title": "Generated microgrids fit their load", "statement": "Whatever is drawn, a microgrid is created from files of up to a year with some positive value. It has PV, a battery and a genset, a grid or both (a third of the range each); a weak grid always comes with a genset. The load has the shape of its file and the drawn peak, the PV that of its file and 30 to 150 percent of that peak; the battery has the smallest whole capacity for 3 to 5 hours of mean load and is charged or discharged in about 4 hours, with a first state of charge that is the drawn one cut to 0.2 and 1; the largest power of the genset is the smallest that meets the peak with a whole rated power; the grid gives and takes twice the peak. It has all that non-modular microgrids need to be run.", "quantifier": "all folders of such files of any length up to a year, all numbers that are drawn", "why_tests_cant": "All random draws and all files; the sizes must fit for every load.", "anchors": ["src/pymgrid/MicrogridGenerator.py: MicrogridGenerator._create_microgrid, _size_mg, _get_battery, _get_genset, _bin_genset_grid"]}
{"id": "C84", "title": "Outages and prices of generated grids", "statement": "The status of a generated grid has a row for each hour of the year. A grid that is not weak never fails. A weak one fails in the hours that are struck (each with a chance of a 24th of the drawn daily rate) and in the duration - 1 hours before each, but in the first hour of the year only if it is struck itself; in all others it works. If the number drawn for the rate is not above -1/3, it never fails. The price of import is that of its tariff for the hour of the day, that of export is 0, the emissions are those of the file.", "quantifier": "all numbers that are drawn, every hour of the year", "why_tests_cant": "All combinations of outages that overlap, over a whole year.", "anchors": ["src/pymgrid/MicrogridGenerator.py: MicrogridGenerator._get_grid, _generate_weak_grid_profile, _get_electricity_tariff"]}
{"id": "C85", "title": "Generating a list of microgrids", "statement": "A call of generate_microgrid appends to the list what its draws make, in order, and keeps what was there before; a second call appends as many again. If one cannot be made, the call fails and the list keeps those before it. With files of a year each, like those of pymgrid, all are made and each can be converted to a modular microgrid with the same components. Without files for the load NameError is raised and nothing changes.", "quantifier": "all folders, any number of microgrids, any list before the call, all numbers that are drawn", "why_tests_cant": "Any number of microgrids and draws; the failure of any one of them.", "anchors": ["src/pymgrid/MicrogridGenerator.py: MicrogridGenerator.generate_microgrid, _create_microgrid", "src/pymgrid/convert/convert.py: to_modular"]}
{"id": "C86", "title": "The rule-based control serves generated microgrids", "statement": "On a generated microgrid with a load that is never zero the rule-based control always returns. In each of its steps all of the load is met and nothing is produced in vain, except if there is no grid, or it fails, and what PV and battery leave of the load is not more than the smallest power of the genset.", "quantifier": "all generated microgrids, all lengths of runs, every step", "why_tests_cant": "All random draws, files and whole runs of the control over a year.", "anchors": ["src/pymgrid/MicrogridGenerator.py: MicrogridGenerator._create_microgrid", "src/pymgrid/algos/rbc/_nonmodular_rbc.py: RuleBasedControl.run"]}
{"id": "C87", "title": "Choices of the priority list", "statement": "Each number of a choice has a fixed meaning that depends on the components (charge with the PV left over and export the rest, discharge and import the rest, import, export, generate, charge all that fits, discharge and generate the rest); any other number raises NameError. The battery does what is asked. All of the load is met if the grid or the genset can give what is asked of it; with charging or exporting nothing is curtailed if the grid can take it. The choices without the genset always return, and in runs of choices the state of charge stays within its limits. That genset choices always return, that charging from the grid wastes no PV that could be exported, and that without a genset outages are respected, is refuted.", "quantifier": "all microgrids, states and choices, all runs of choices", "why_tests_cant": "All combinations of load, PV, charge, limits and outages, over whole runs.", "anchors": ["src/pymgrid/_deprecated/Environments/Environment.py: Environment.get_action_priority_list", "src/pymgrid/_deprecated/non_modular_microgrid.py: run"]}
{"id": "C88", "title": "Environments of non-modular microgrids", "statement": "Until the episode is over a step runs the control of its action; the observation shows each value of the new state divided by a fixed scale (capacity, peak load, rated PV, first prices and emissions) and the hour as a point on a circle; the reward is minus the recorded cost, in training its root or its share of the peak load. Once it is over steps change nothing and repeat the last result. Episodes after a reset last a fixed number of steps, and without smoothing the rewards sum to minus the recorded costs. A reset for testing switches smoothing off for good. Resampling on reset (but for testing) and get_cost never work. That rewards are always numbers is refuted.", "quantifier": "all functions from actions to controls, all microgrids, all sequences of steps and resets", "why_tests_cant": "Any sequence of steps and resets, any control, episodes of any length.", "anchors": ["src/pymgrid/_deprecated/Environments/Environment.py: Environment.__init__, step, reset, transition, get_reward, get_cost", "src/pymgrid/_deprecated/Environments/Preprocessing.py: Preprocessing"]}
{"id": "C89", "title": "Actions in fractions and in amounts", "statement": "An action of fractions asks for those shares of what the battery can take and give, of the limits of the grid (nothing in an outage) and of the rated power of the genset, and so never for more than these; the run does exactly that with battery and grid. An action of amounts has a switch that decides between charging and discharging and between import and export. That a fraction never charges and discharges in the same step is refuted.", "quantifier": "all microgrids, states and actions", "why_tests_cant": "All real fractions and states of the microgrid.", "anchors": ["src/pymgrid/_deprecated/Environments/Environment.py: Environment.get_action_continuous, get_action_discrete"]}
{"id": "C90", "title": "Environments with continuous actions: steps and episodes", "statement": "An environment is made only of a microgrid with 8760 rows, and with a trajectory only if it fits. A step runs the control whose entries are the numbers of the action, in a fixed order (moved back by the standardization if there is one); the observation shows the new state, the reward is minus the cost that was recorded, and done is that of the microgrid. The rewards of any number of steps sum to minus the costs they add to the record. A reset returns the state shown then. After a reset an episode lasts a fixed number of steps: 8760 without limits, the length of the trajectory without a limit on the episode, and one more than that or than the limit with it. The first step uses the first row of the data. That a limit of m gives m steps, that a trajectory starts with the data of its start, and that steps after the end change nothing, is refuted.", "quantifier": "all microgrids, actions, starts, lengths and sequences of steps", "why_tests_cant": "Episodes of any length from any random start, any actions.", "anchors": ["src/pymgrid/_deprecated/Environments/pymgrid_csca.py: MicrogridEnv.__init__, _short_trajectory_set, reset, step, ContinuousMicrogridEnv.get_control_dict"]}
{"id": "C91", "title": "Standardization and bounds of continuous actions", "statement": "Without a genset the means are those of the columns of the past actions and states, and the deviations are theirs or one, whichever is more; moving back undoes the move. Without standardization the bounds are the limits of the microgrid; with it they are moved by it, except for the export, whose upper bound is always 0.1. Without standardization the grid and the genset do exactly what an action within the bounds asks. With a genset no standardized environment can be made, without the parameters of a grid none at all. Standardized episodes without a limit on their length never end: their last step raises. That the bound on exports is that of the microgrid is refuted.", "quantifier": "all microgrids, tables of past actions and states, actions and episodes", "why_tests_cant": "All reachable states, all actions within the bounds, and whole years of steps.", "anchors": ["src/pymgrid/_deprecated/Environments/pymgrid_csca.py: ContinuousMicrogridEnv.__init__, standardize, pre_compute_standardizations, _get_action_ub_lb, step, reset"]}
{"id": "C92", "title": "Values and constraints of continuous environments", "statement": "After a step the values asked for by name are those of the control and of the new state, standardized or not. The number of constraints is the one announced; they are all at most zero exactly if the charge and the discharge fit the room that is shown, import and export the limits and the status of the grid, the state of charge its limits and the genset its powers, and scaling does not change this. The last one is zero exactly if the action balances with the load that is shown. Before the first step the values of actions are zero. A reset with a sample replaces data and first state by the sample. Refuted: values before the first step are those of the microgrid if standardized, an action that was carried out in full satisfies the constraints (they look at the battery after it), and one that balanced the load of its step has no imbalance (they look at the next load), and after a reset the values of the last action are zero.", "quantifier": "all environments, actions, scales and samples", "why_tests_cant": "All states and actions, with and without standardization and scaling.", "anchors": ["src/pymgrid/_deprecated/Environments/pymgrid_csca.py: ContinuousMicrogridEnv.get_values, SafeExpMicrogridEnv.get_constraint_values, _get_energy_balance, _get_inequality_constraints, sample_reset"]}
