# A Rocq model of pymgrid

Sources: /repo (Total-RD/pymgrid at the pinned commit), read as text.
Development: `rocq/theories`, logical name `Verif`, Coq 8.16.1, standard library only.

## 1. How the model is built

* **Arithmetic.** Every definition is written once over the class `NumOps`
  (Num.v) and instantiated with exact rationals `Q_ops` (main theorems) and IEEE
  binary64 `B64_ops` (the executable `SpecFloat` of the standard library; theorems on
  what rounding preserves and breaks). NaN/inf do not exist in `Q`.
* **Exceptions are values.** `res A = Ok a | Err e`; `e` carries the Python class.
  Methods that mutate are `M S A = S -> S * res A`: the state survives an exception, so
  theorems can say what a failed call left behind.
* **Dictionaries** are insertion-ordered association lists, with Python's
  overwrite/append semantics. Integers are `Z`; horizons are `nat`.
* **Randomness** is an oracle: any stream of draws. Theorems quantify over it.
* **User callables** (cost functions, transition models, forecasters, reward shapers,
  trajectory functions) are arbitrary pure Gallina functions, which may raise where
  the code handles or propagates exceptions.
* **Microgrid** = heap (list) of modules plus nine containers of module indices, as in
  module_container.py; iteration order and name merging are modelled.

Kinds of file: model files (below) hold definitions only, each citing the lines it
models; `Spec_*` hold the small independent specifications the statements use;
`Proofs_*` hold lemmas; `Properties_*` hold the property theorems, a concrete case
that meets each one's hypotheses, and `Print Assumptions`.

| model file | code |
|---|---|
| Num, Py | Python numbers, lists, dictionaries, exceptions |
| Space | utils/space.py |
| Logger | utils/logger.py |
| Forecast | forecast/forecaster.py |
| Module | modules/base/*, modules/{battery,genset,grid,load,renewable,unbalanced_energy}_module.py |
| Container | modules/module_container.py |
| Microgrid | microgrid/microgrid.py, microgrid/utils/step.py |
| Trajectory, Shaping | microgrid/trajectory/*, microgrid/reward_shaping/* |
| PriorityList | algos/priority_list/*, algos/rbc/rbc.py |
| Env | envs/base, envs/discrete, envs/continuous |
| Serialize | utils/serialize.py and the serialization methods of modules and microgrids |
| NonModular | _deprecated/non_modular_microgrid.py (the simulation, not the plots) |
| Conversion | convert/* |
| MPC | algos/mpc/mpc.py for modular microgrids; the solver is a parameter |
| NmRbc, NmMpc | algos/rbc/_nonmodular_rbc.py and algos/mpc/mpc.py for non-modular microgrids |
| Saa | algos/saa/saa.py |
| Benchmarks | algos/Control.py |
| Sampling | utils/DataGenerator.py (random forecasts and samples), algos/saa/saa.py `__init__` and `run` |
| Generator | MicrogridGenerator.py (`_create_microgrid` and what it calls, `generate_microgrid`) |
| OldEnv | _deprecated/Environments/Environment.py and Preprocessing.py |
| GymEnv | _deprecated/Environments/pymgrid_csca.py |

## 2. Properties, model, proof method

Theorem names begin with the property's id; MANIFEST.json lists them. `_refuted`
theorems prove that a claim a user might expect is false of the code; the property's
statement says so too.

| id | what is modelled | proof |
|----|------------------|-------|
| C01, C02 | ModuleSpace | pointwise field reasoning; `_refuted` for the degenerate spread |
| C03 | as_source/as_sink/step for the six classes | case analysis; specification = independent clip function |
| C04–C08 | battery + base step/reset | induction over arbitrary lists of calls, failing calls included |
| C09 | the same definitions at `B64_ops` | invariant from the clamp; concrete binary64 trace computed by the kernel for the upper bound |
| C10 | battery min_act/max_act + denormalize | linear arithmetic, witness |
| C11–C13, C49 | genset status machine | inductive invariant over request histories |
| C14, C15 | genset step | case analysis |
| C16 | `_set_time_series` | list induction |
| C17 | `_done`, `_update_step`, run | induction on histories |
| C18–C22 | forecasters, base time-series module | list/matrix lemmas |
| C23–C26, C50, C51 | grid, load, renewable, unbalanced modules; observations | case analysis |
| C27–C31 | run, utils/step.py | loop invariants over the containers |
| C32, C33 | reset, logger | induction on histories |
| C34, C35, C37, C38, C46, C47 | module_container.py, constructor, set_module_attr, to/from_normalized | induction over the module list |
| C36 | trajectory functions | arithmetic over all draws |
| C39–C41, C54 | priority lists, rule-based control | permutations, sorting, greedy invariant; induction over the loop for the whole run's log |
| C42, C43, C48 | environments | case analysis on the wrappers; projection of the run theorems |
| C44 | reward shaping | case analysis |
| C45, C55 | serialize/deserialize, from_microgrid | round-trip lemma by structural induction |
| C52, C53 | run over whole microgrids | progress: an invariant kept by every call, under which run returns |
| C56–C61 | NonModularMicrogrid | symbolic execution of `run` into a record of what was appended; invariants over histories of calls, failed ones included |
| C62 | to_modular | each constructor's result, then the container's views by name |
| C63 | to_modular copy and original side by side | a simulation relation kept by every step; each module's event against the recorded production |
| C64 | to_nonmodular, and to_modular followed by it | the parameters collected module by module as a sum of contributions whose order does not matter; the check of names and classes as uniqueness of positions |
| C65 | the matrices and vectors of the program for every horizon | each row of A and C evaluated at a vector cut into blocks of one step; the rows of a block say what `allowed` says |
| C66 | making the controller, reading the state | one module per class and name (C64), states of time series as in C15; feasibility by the plan that does nothing and loses the whole load |
| C67 | one step of the controller: the answer of the solver, the control taken from it, the run of the microgrid | solutions are plans (C65), their first step is within every module's limits, so nothing is clipped; the flexible modules share what remains (C31) |
| C68 | plans only (C65 ties them to the program) | exchange arguments: one step of a least-cost plan is replaced by one that moves a little energy and is still allowed |
| C69 | `run` on modular microgrids: number of steps, reset, loop, log | induction over the loop inside an episode (C17): every state has its rows of data, poses a program (C66) and makes the step (C67) |
| C70 | `_generate_priority_list`, `_run_priority_based`, the decision part of `run_rule_based` | one lemma per turn (PV, battery, grid, genset), composed for the four orders the priorities can have; the decision is characterised completely by case |
| C71 | the rest of `run_rule_based`: the copies of the records, its loop and its length | a trace of records, each step related to its row of data; the balance, costs and charge of a step from C56, C58, C59; a decision never balances exactly without PV, so nothing raises |
| C72 | `run_rule_based` and `run` of its decisions side by side | a simulation relation: equal records except for the hour; refuted without a grid |
| C73 | NmMpc.v: the controller of a non-modular microgrid and the programs it poses; the solver is any function | the values of a step are the rows of the data and the last recorded charge; then the equivalence of program and plans of C65; doing nothing is always a plan |
| C74 | `_run_mpc_on_sample` on the microgrid's own data: reset, loop, records in copies | a trace as in C71; the amounts of C57 compared with those of the plan; refuted: carrying out every plan, returning always |
| C75 | saa.py (`run_mpc_on_group`, `determine_optimal_actions`, `run_deterministic_on_forecast`), `HorizonOutput`, `mpc_single_step`; samples, solver, floor and partition are parameters | a trace as in C74 whose steps choose among the plans of all samples; refuted: percentile 1, what the records show, running on a forecast |
| C76 | as C75, and `_run_mpc_on_sample` | a simulation between the two loops, on records that differ in three columns |
| C77 | Benchmarks.v: `Benchmarks` of algos/Control.py and `print_benchmark_cost`; the runs are those of C74 and C75, ceiling and rounding are parameters, what is printed is a list of lines | the invariant that attributes and dictionary agree, over histories of calls on microgrid and benchmarks; a ceiling of all steps times one less the ratio leaves the floor of all steps times the ratio; refuted: running all algorithms, the rule-based one, a modular microgrid, the ratio in binary64 |
| C78 | `ControlOutput` of algos/Control.py: constructor, comparisons, `append`, `to_frame` | equality as sameness of the tables of costs; refuted: ordering, comparing sums, appending, leaving the output alone when a frame is made |
| C79 | `NoisyGridData` of utils/DataGenerator.py; what numpy draws is an input (uniform numbers) | the learned chances are the shares of transitions counted in the data; samples are exactly the series with such transitions, in both directions; refuted: data of one row can be sampled |
| C80 | `NoisyLoadData`: constructor and `sample`, stacked; normal numbers are an input, the square root a parameter | row by row against average and spread of the data at the same hour and weekday; refuted: samples have as many rows as the data |
| C81 | `NoisyPVData`: `sample` and the daily parabolas; the two fitted curves and the triangular distribution are parameters (the peaks of theorems are uniform) | arcs between dawn and dusk of each day by an equation without division, then noise, clipping and moving; refuted: any data can be sampled (a day without sun) |
| C82 | `SampleGenerator` (`create_forecasts`, `sample_from_forecasts`, `mape`, presets) and `SampleAverageApproximation.__init__`, `run` | from data of whole sunny days to forecasts, from forecasts to samples that meet the hypotheses of C75; what later runs use, from C75's steps |
| C83 | `_create_microgrid` from the files and the draws to the call of the constructor (`assemble_spec`, `size_mg`, `get_battery`, ...) | scaling by the maximum gives the peak; rounding is any function between x and x + 1; the assembled tables meet `wired`, so the constructor returns |
| C84 | `_generate_weak_grid_profile`, `_get_grid`, `_get_electricity_tariff` | invariant over the rows visited: a row is 0 iff it is struck or lies just before a struck row already visited; prices by cases over the hour |
| C85 | `generate_microgrid` as a state-keeping loop | induction over the number of microgrids; conversion from C62 with the sizes of C83 |
| C86 | the rule-based control of NmRbc on what `_create_microgrid` makes | C71 for each step; the sizes of C83 and the outages of C84 leave no row without supply |
| C87 | `get_action_priority_list` (`action_priority`) on non-modular microgrids | a table of what each number means; the amounts by cases over minima and maxima; runs from C56 to C58; refuted: choices of the genset always return, charging from the grid wastes nothing, outages are respected without a genset |
| C88 | `Environment` (`__init__`, `step`, `reset`, `transition`, `get_reward`, `get_cost`) over any function from actions to controls; sine, cosine and root are parameters | induction over steps and calls; the episodes of C60; refuted: rewards are numbers with the default smoothing |
| C89 | `get_action_continuous`, `get_action_discrete` | inversion, then bounds of products of fractions; what the run does with them from C56; refuted: one action never charges and discharges |
| C90 | `MicrogridEnv`, `ContinuousMicrogridEnv` (`__init__`, `reset`, `step`, `get_control_dict`), a random start is an input | inversion of each constructor; induction over steps with the episodes of C60; refuted: a limit of m gives m steps, a trajectory starts with the data of its start, steps after the end cost nothing |
| C91 | `standardize`, `pre_compute_standardizations`, `_get_action_ub_lb` | field arithmetic with deviations at least one; the bounds by cases over architectures; what the run does with an action within them from C56; refuted: the bound on exports is that of the microgrid |
| C92 | `get_values`, `SafeExpMicrogridEnv` (`get_constraint_values`, `sample_reset`) | values by inversion of the lookup; constraints as a list, each at most zero by cases and linear arithmetic; refuted: values before the first step are those of the microgrid, an action carried out in full meets the constraints, the balance is that of the load the action was for, a reset clears the values of the last action |

## 3. Trusted base

* Coq's kernel (and coqchk, which vcheck runs).
* The reading of Python, numpy and pandas written in the comments of the model.
* `Print Assumptions` under every property theorem answers "Closed under the global
  context": no axiom is used. vcheck also lists seven `Coq.ssr.ssrunder.Under_rel.*`
  parameters: they belong to Coq's own ssreflect files,
  and no theorem depends on them.
* Theorems about `Q_ops` say nothing about rounding; C09 is about binary64.

## 4. Simplifications and what is not modelled

* YAML and CSV text: taken as faithful (CSV's loss of float digits is not modelled).
* NaN and infinities in exact arithmetic: where the code yields them for certain, the
  theorems exclude or name the case.
* pandas and numpy beyond the operations named; warnings, logging to the console,
  plots (`*_plot`, the other `print_*`), progress bars.
* Python lists passed as normalized actions; one module object passed twice.
* The linear program solver (cvxpy and its backends) is a parameter of the model: any
  function from programs to answers. What is assumed of it is written in the statements.
* Random numbers are inputs: theorems hold for all of them in numpy's ranges, and say nothing
  about how likely they are.
* Not modelled at all: ray helpers, the quantile regression that fits the curves of the PV,
  unstacked samples, `ForecastArgs` and `test_args` of utils/DataGenerator.py, the
  other pymgrid_cs* subclasses of `Environment` (they cannot be imported), an integer instead of a microgrid
  for the environments of pymgrid_csca.py; of MicrogridGenerator.py `load`, the `print_*` reports,
  `_resize_timeseries`, `_get_wind_ts`, `_get_grid_price_ts` and the seeding of numpy.

## 5. What the proofs found in the code

Each is a theorem or is used in one; numbers refer to properties.

1. `reset` restores neither a battery's charge nor a genset's status (C32).
2. A battery's `min_act`/`max_act` are swapped against its sign convention (C10).
3. In floating point charging can end above `max_capacity`; the next step asserts (C09).
4. A normalized 1 on a degenerate space denormalizes to `low + 1` (C02).
5. `as_sink` on a pure source, and `Genset.sample_action(strict_bound=True)`, raise TypeError (C03, C38).
6. A genset that forbids abortion and has start-up or wind-down times never changes status (C12).
7. `final_step` is not checked against the data; a setter that raises keeps the new value (C17, C35).
8. The oracle forecast is a view: clipping it rewrites the series (C21); a new forecaster leaves the old forecast in place (C22).
9. A dictionary given to `Microgrid.set_forecaster` changes nothing (C46).
10. Modules with one name in two categories are accepted and hidden (C34).
11. A missing control raises after the fixed modules have stepped; superfluous ones are dropped (C30).
12. An imbalance raises after the step was taken and logged (C27).
13. A default or user-placed unbalanced-energy module can pre-empt a flexible grid (C31).
14. Reward shapers: shares of batteries and the lost-load term are wrong or raise (C44).
15. A stochastic trajectory can never use the last step and fails on short windows (C36).
16. A priority list given to the rule-based control as a list is refused; a genset with a minimum is never started by the default list (C41).
17. The continuous environment cannot be stepped; its flat form cannot be built; a grid declared a fixed module makes every run raise TypeError (C43).
18. The discrete environment logs an action before validating it (C42).
19. The advertised observation length is wrong for repeated keys (C48).
20. A loaded microgrid has a stale forecast, no reward shaper and no balance log; with a log its next run raises (C45).
21. The non-modular balance holds only up to 1/1000, and a control that balances the load exactly raises (C56, C61).
22. The non-modular microgrid uses a grid that is down (C57), lets an islanded battery leave its limits (C58), shows wrong next prices before the first run (C60), cannot train with horizon 1, and its `penalty` never returns (C61).
23. The modular copy differs from the original: a battery's discharge power is limited inside instead of outside the battery, its wear is charged inside, `battery_soc_max` is dropped, and a grid that is down is respected (C62, C63).
24. `to_nonmodular` copies the load with the modules' negative sign, so the copy has a negative demand (C64). Without a renewable module it cannot be made; without an unbalanced-energy module, or without both a grid and a genset, it is made but every run raises (C64). Start-up times and the battery's transition model are lost, and the first record is taken at the current step although the copy restarts at step 0.
25. Model predictive control needs the battery to be *named* "battery"; with neither grid nor genset it is made but its first step raises RuntimeError; it takes the grid to be up always, and counts exported energy as an expense (C65, C66).
26. The plan of the predictive controller need not be carried out (C67): it ignores the grid's status, start-up and wind-down times, and lets the battery *give* its limit where the module only lets it *lose* it. It counts wear on the energy outside the battery (the module: inside), CO2 of imports at the mean of grid's and genset's CO2 costs, and income from selling as an expense.
27. Because export counts as an expense, an optimal plan never sells surplus PV at a positive price but curtails it (C68), although the modules would pay for it.
28. The non-modular rule-based control sets the genset's minimum power aside from the load before it serves the rest; if PV and battery then cover the rest, the genset is never turned on and the supply is short by the minimum power, while `loss_load` says 0 (C70). If the load is below the minimum power, twice that power is asked for.
29. The non-modular rule-based control needs a battery whenever there is a grid or a genset (`KeyError` otherwise, C70).
30. The non-modular rule-based control writes one hour into every row of its state, ignores the training/testing split (it reads from row 0 of all data), and raises AssertionError on a load of 0 with PV when the battery is full (C71). Load is lost in steps in which the genset could serve it (C71).
31. Without a grid, running the decisions of the non-modular rule-based control leaves another state of charge than its own records, beyond the battery's limits (C72).
32. On a non-modular microgrid the predictive control fails with TypeError when a program has no solution: the values are `None`, so the fallback to the previous controls is dead code (C73).
33. The predictive program lets the battery be charged with (max - soc) * capacity / efficiency, but what is recorded is limited to (max - soc) * capacity * efficiency: near full, plans are not carried out and imported energy is recorded as overgeneration (C74).
34. The predictive control of a non-modular microgrid raises AssertionError when a plan curtails all of at least 0.001 PV and loses no load, which cheapest plans do (C74). It reads rows from 0 of all data, even while a testing set is in use whose length it takes, and writes the hour 0 into every row (C74).
35. The sample average approximation refuses the percentile 1, which its documentation allows (C75).
36. Its records show the load, the PV and the grid status of the step itself where those of the next row are expected, next to the prices of the next row (C75).
37. It compares plans by a cost that leaves out emissions and wear and counts exports as income, while the programs count all three as expenses: the plan it prefers need not be the one the programs prefer (C75).
38. It does not reset the microgrid: its records follow those that are there, but the data start at row 0. `run_deterministic_on_forecast` returns in its first iteration: nothing is run (C75).
39. `Benchmarks.run_rule_based_benchmark` uses the class of modular microgrids and a method that it does not have. It always raises, and so does `run_benchmarks()`: only `algo='mpc'` and `algo='saa'` can succeed (C77).
40. `run_mpc_benchmark` of a modular microgrid runs the control, keeps the log, sets `has_mpc_benchmark` and then raises AttributeError, because a frame has no `alg_name` (C77).
41. `print_benchmark_cost` makes new benchmarks and describes them: it always raises IndexError (C77).
42. `describe_benchmarks` refuses outputs of different lengths even if only one of them is asked for. After a train/test split the predictive control runs on the training rows and the sample average approximation on all rows of its samples, so the two cannot be described (C77).
43. In binary64 the number of last steps can be one less than the ratio makes up: 10 of 25 for 0.44 (C77).
44. Outputs cannot be ordered by cost (`<` and `>` raise TypeError), and `==` compares whole tables of costs instead of their sums. `to_frame` fills up the columns of the output itself with NaN; after it, described costs are NaN. `append` of an output always raises (C78).
45. A microgrid with a day without sun, with PV at midnight or in the last hour of a day, or with a last day that is not whole cannot be controlled by the sample average approximation: its constructor raises IndexError or RuntimeError (C81, C82).
46. The preset for an accuracy of 85 forecasts the PV perfectly: its values are moved all the way to the data (C82).
47. Samples of loads that do not end with a whole day have more rows than the data, and loads after the first 8760 rows are left out (C80).
48. A grid status of one row is accepted but cannot be sampled (ValueError, C79).
49. A second run of the sample average approximation uses the samples of the first by default, whatever number is asked for, and these were overwritten with the actual data: the second run knows in advance what the first went through (C82).
50. Outages of generated grids extend backwards in time from the hour that is struck, not forwards; the first hour of the year is never part of an outage that is struck later (C84).
51. The number of outages per day of a weak grid is drawn from a normal distribution and is negative in more than a third of the cases: such a "weak" grid never fails (C84).
52. `generate_microgrid` appends: a second call doubles the list, while `print_mg_parameters` and `print_all_costs` keep looking at the first `nb_microgrids` (C85). The argument `timestep` of the generator is ignored.
53. `print_all_costs` cannot succeed: it takes the sum of the recorded costs, which are a dict (not modelled; read from the code).
54. The modules pymgrid_csda.py, pymgrid_cspla.py and pymgrid_csca_old.py import `pymgrid.Environments`, which does not exist (read from the code).
55. `Environment` with `resampling_on_reset` cannot be made, except for testing: it calls a function of an attribute that is not set yet (C88).
56. `Environment.get_cost` always raises KeyError: the table of costs has no column `cost` (C88).
57. After one reset for testing, rewards stay unsmoothed for good, also after resets for training (C88).
58. With the default smoothing by the square root, a step with a negative cost gives no number as reward (C88).
59. Observations are divided by the first row of emissions and prices, not by the largest; the price of export is divided by the first price of import (C88).
60. To charge from the grid counts the charge twice against the PV left over, so that PV is curtailed which the grid could take (C87).
61. Without a genset the choices ignore outages, and ask to import from a grid that is not there (C87).
62. A choice of the genset with a load below its least power raises AssertionError (C87).
63. A fraction between 0 and 1 asks to charge and to discharge in the same step (C89).
64. A limit of m on the length of episodes gives m + 1 steps (C90).
65. The first step of a trajectory uses the first row of the data, not the row of its start: the clock is moved, the values shown and run are not (C90).
66. Steps after the end of an episode still run and cost (C90).
67. A standardized environment of a microgrid with a genset cannot be made: the five names of its columns are written as one string (C91).
68. Without the parameters of a grid no continuous environment can be made: KeyError (C91).
69. The upper bound on exports is always 0.1 once standardized (C91).
70. The last step of a standardized year raises TypeError instead of returning done (C91).
71. Values asked for before the first step are the standardized ones (C92).
72. The constraints compare an action with the room left after it, and its balance with the load of the next row: an action carried out in full may violate them (C92).
73. An environment made from a number cannot work: `generate_microgrid` converts to modular microgrids by default (read from the code).
74. Without grid and genset two choices are offered although five have a meaning (C87).
75. After a reset the environment still shows the last action of the episode before, and its constraints speak about that action (C92).
