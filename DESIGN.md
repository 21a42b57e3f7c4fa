# Formal model of gym-anm in Rocq (Coq 8.16.1)

Everything machine-checked is in `rocq/theories`. `properties.jsonl` lists the
claims in English, `MANIFEST.json` maps claims to theorem names, and
`seeded/LOG.jsonl` records the wrong programs the theorems were tested against.

## 1. How the code is modelled

* **Shallow functional model.** Each Python function becomes one Gallina
  function of the same shape (same branches, same order of checks). A comment
  above every definition gives file and lines, and says what was simplified.
* **Exceptions are values.** `res A := Ok a | Err e`, with `e : exn` named after
  the Python class (`BusSpecError`, `ZeroDivisionError`, ...). Methods that
  mutate an object return the new object *and* a result, so the object left
  behind by an exception raised midway is visible (crash points). Histories
  are lists of calls, each of which may raise; the object left behind is used
  by the next call.
* **Numbers.** The model is written once, generic in a number type `F` with a
  `Num F` dictionary of operations, and used at three instances:
  * `XR`: exact reals extended by `PInf`, `NInf`, `NaN` with the IEEE rules for
    infinities and NaN (comparison with NaN is false, `0*inf = NaN`, `inf-inf =
    NaN`, `x/0 = +-inf`, `0/0 = NaN`). Only rounding and signed zero are idealised;
  * `float`: Coq primitive IEEE-754 binary64, i.e. Python's `float`, for order
    theorems that survive rounding, for theorems about the rounded operations
    (C87, C88, C89) and for executable runs. `sin`, `cos`,
    `atan2`, `fmod` and truncation are parameters;
  * `R`: plain reals, for the derivative statement C19.

  Structural theorems hold for every `F` ("any number type" in `MANIFEST.json`);
  order theorems need the law class `NumOrd`, proved for `XR` and `float`.
* **Externals are arguments, never axioms.** The cvxpy QP of `map_pq`, scipy's
  `spsolve`, the cvxpy LP of the MPC agents, the random generator and the
  user-supplied `init_state`/`next_vars`/`observation` are function arguments.
  A theorem either holds for every such function or states what it needs
  (`qp_sound`, `qp_exact` in `SpecQp.v`). `C06_solver_exists` and `Exec.v` show
  that the requirements can be met.
* **Statements.** `Spec*.v` define the vocabulary of the theorem statements from
  the rows of the network file and the dictionaries a user reads, not from the
  helpers of the model. Beside each theorem an `Example` gives a concrete case
  that meets the hypotheses: a four-device network (`ExNet.v`, `ExRun.v`), two-bus
  networks (`ExTwo.v`, `ExPlan.v`), whole binary64 runs of ANM6Easy (`ExFloat.v`,
  `ExRender.v`, `ExMpc.v`).

## 2. Files

| files | content |
|---|---|
| `Base` | exceptions, result monad, dictionaries, sorting |
| `Num`, `NumXR`, `NumR`, `NumFloat` | number dictionaries and instances |
| `Devices`, `BusBranch`, `CheckNetwork` | components and validation (model) |
| `SvgLabels`, `Page`, `SpecPage`, `ProofPage`, `ProofPage2`, `ProofPage3` | the page shown by the browser (labels, model, vocabulary of C85 and C86, blocks of writes, attributes, exact arithmetic and calendar) |
| `ProofShow`, `SpecShow`, `PropShow`, `ExShow` | from the environment to the page (C86) |
| `RawNet`, `SpecRaw`, `ProofRaw` | network files as arrays of cells (model, vocabulary of C84, reading) |
| `LoadFlow`, `Simulator` | admittance matrix, Newton-Raphson; construct, reset, transition, state, bounds, reward (model) |
| `EnvArgs`, `Env` | argument checks, spaces, reset, step (model) |
| `Anm6` | ANM6, ANM6Easy, its network, rendering client and web-socket server (model) |
| `Mpc`, `Scripts` | MPC agents; the scripts that run agents (model) |
| `LibF64`, `SpecF64`, `ProofF64`, `PropF64`, `ExF64`, `ProofUnits64`, `PropUnits64`, `ExUnits64`, `SpecStor64`, `ProofStor64`, `PropStor64`, `ExStor64` | a binary64 operation is the exact operation followed by rounding; penalties, rewards, units, storage in binary64 (C87, C88, C89) |
| `Exec` | reference solvers, to run the model |
| `LibBase`, `LibNum`, `LibSim`, `LibInit`, `LibXR`, `LibEval`, `LibQp`, `LibC` | lemmas |
| `SpecNet`, `SpecSim`, `SpecDev`, `SpecQp`, `SpecPf`, `SpecNr`, `SpecEnv`, `SpecObs`, `SpecAnm6`, `SpecRender`, `SpecMpc`, `SpecTotal`, `SpecEpisode`, `SpecMessage`, `SpecLight`, `SpecScript`, `SpecMarkov` | specifications used in statements |
| `Proof*` | proofs |
| `Prop*` | the property theorems, with `Print Assumptions` |
| `Ex*` | concrete cases and counterexample networks |

## 3. What is modelled, and what is not

| code in /repo/gym_anm | model | not modelled |
|---|---|---|
| `simulator/components/devices.py` | `Devices.v`, all classes and methods | the string form of errors; IDs and types are integers here, `RawNet.v` reads them from cells |
| `simulator/components/bus.py`, `branch.py` | `BusBranch.v`, all | complex division is the textbook formula (numpy scales it) |
| `simulator/check_network.py` | `CheckNetwork.v`, all; `RawNet.v`, all again on arrays of cells | in `RawNet.v` an array with too few columns raises IndexError before other checks of the row; OverflowError and ValueError of `int` are not told apart |
| `simulator/solve_load_flow.py` | `LoadFlow.v` and the object updates in `Simulator.v`, all | sparse storage (matrices are dense); `spsolve` is an argument; warnings |
| `simulator/simulator.py` | `Simulator.v`, all public methods | the pandas/numpy parsing of the input dictionary: a network is a list of rows with optional cells |
| `envs/utils.py`, `simulator/components/constants.py` | `EnvArgs.v`, all | |
| `envs/anm_env.py` | `Env.v`: constructor, spaces, `reset`, `step`, observations, reward | gymnasium's wrappers and `Env` base class apart from seeding; warnings of `Box` |
| `envs/anm6_env/anm6.py`, `anm6_easy.py`, `utils.py`, `network.py` | `Anm6.v`, all | `datetime` is a number of minutes since 2020-01-01 00:00 (user dates have minute resolution) |
| `Simulator.get_rendering_specs`, `ANM6._init_render` | `Message.v`: the first message of a rendering | the JSON encoding |
| `rendering/py/rendering.py`, `servers.py` | `Anm6.v`: start/update/close, processes, message dispatch to browsers | sockets, the HTTP server, operating-system failures, timing (`time.sleep`): the schedule is arbitrary instead |
| `rendering/js`, `envs/anm6/svgLabels.js` | `Page.v`, `SvgLabels.v`: all functions and labels, the element IDs and the two `y` attributes read from `network.svg` | number formatting (`toFixed`, `toPrecision`) is symbolic; centres of rotations; the shapes drawn in `network.svg`; entries missing from a message raise when read |
| `agents/mpc.py`, `mpc_constant.py`, `mpc_perfect.py` | `Mpc.v`: constructor, constraints, objective, parameters, forecasts, action | the solver: a plan is any point that satisfies the constraints |
| `errors.py`, `simulator/components/errors.py` | names of exceptions in `Base.v` | messages |
| `examples/simple_env.py`, `examples/custom_anm6.py` | `Examples.v`: networks, constructors, `init_state`, `next_vars` | the global generator of numpy is an arbitrary generator carried by the environment; the scripts under `__main__` |
| `examples/mpc_perfect.py`, `mpc_constant.py`, `random_agent.py` | `Scripts.v`: the runs, and `MPCAgent.act` on an environment | the wrappers of `gym.make`, printing, sleeping |
| `examples/new_env_template.py`, `tests`, `docs` | nothing | |

## 4. Properties

`status` is that of `MANIFEST.json`; *partial* means that the claim as written is false of the code (a `_refuted` theorem
exhibits the failure) and the `_partial` or other theorems prove what is true instead, unless the note says otherwise.
The axiom classes are defined in section 6.

The last column names the `Example` that meets the hypotheses.

| id | claim | status | method | concrete case |
|---|---|---|---|---|
| C01 | State of charge never leaves its declared range | proved | Invariant over lists of `reset`/`transition` calls with arbitrary oracles, for any number type with the order laws `NumOrd` (instances: exact extended reals, binary64). NaN is excluded by the energy theorem when the QP solver is exact. | `C01_ex` (`PropSim.v`) |
| C02 | reset() leaves the storage units in their declared range | partial | Evaluation of `sim_reset` on a concrete vector; shape lemma of every successful reset. | `C02_ex` (`PropSim.v`) |
| C03 | Storage energy accounting: no free energy | proved | Algebra on one transition; induction over the sequence of transitions. | `C03_ex` (`PropSet.v`) |
| C04 | A generator set-point is mapped to the closest feasible point | proved | The rows of the QP are shown equal to a geometric region stated on the file values (`SpecQp.v`); uniqueness and idempotence by convexity. | `C04_ex` (`PropSet.v`) |
| C05 | A storage set-point is mapped to the closest feasible point | proved | As C04, with the SoC-dependent limits. | `C05_ex` (`PropSet.v`) |
| C06 | Mapping a set-point never fails on an accepted device | partial | A point of every region is constructed; the failing networks are theorems about every call. `C06_solver_exists` builds an exact solver (nearest point of a closed convex set; uses choice). | `C06_ex` (`PropSet.v`) |
| C07 | Loads only withdraw power, at constant Q/P ratio | proved | Clip lemma of the load, lifted to `transition` over any history. | `C07_ex` (`PropSet.v`) |
| C08 | Generation never exceeds the potential; curtailment is non-negative | proved | Region lemma (upper P row), lifted to `transition`. | `C08_ex` (`PropSet.v`) |
| C09 | Device injections respect the advertised device bounds | partial | Region lemmas; witness for the refuted part. | `C09_ex` (`PropSet.v`) |
| C10 | Network-file power limits are converted to per-unit | partial | Each attribute of a constructed device is computed from the row of the file; read back through `state_bounds`. | `C10_ex` (`PropUnits.v`) |
| C11 | Network-level validation accepts exactly the well-formed networks | proved | Boolean checks shown equivalent to a declarative specification (`SpecNet.v`). | `C11_ex` (`PropNet.v`) |
| C12 | Device validation accepts exactly the documented specs | partial | Each constructor shown to succeed iff the rules of `SpecDev.v` hold. | `C12_ex` (`PropDev.v`) |
| C13 | Branch and bus validation accepts exactly the documented specs | proved | As C12. | `C13_ex` (`PropDev.v`) |
| C14 | Devices and buses are processed in increasing ID order, no element lost | proved | Sorting and permutation lemmas, filter/count lemmas. | `C14_ex` (`PropUnits.v`) |
| C15 | Kirchhoff's current law holds for the nodal admittance matrix | proved | Matrix entries as finite sums of branch terms over Coquelicot complex numbers, induction over branches. | `C15_ex` (`PropPf.v`) |
| C16 | Branches are passive | proved | Complex algebra on the pi-model. | `C16_ex` (`PropPf.v`) |
| C17 | pfe_converged=True means the AC power-flow equations hold to 1e-5 | proved | Loop invariant of Newton-Raphson + shape of a converged transition, any history and any linear solver. | `C17_C20_C21_C22_C24_C25_ex` (`PropPf.v`) |
| C18 | Newton-Raphson always terminates within 100 iterations and never reports NaN as converged | proved | The fuelled loop refines a relational specification (`SpecNr.v`). | `C18_ex` (`PropPf.v`) |
| C19 | The Newton-Raphson Jacobian is the exact derivative of the mismatch function | proved | `is_derive` of every mismatch component with respect to every unknown, any size. | `C19_ex` (`PropJac.v`) |
| C20 | Active power balance of a converged state | proved | Summation of C15-C17 over the buses. | `C17_C20_C21_C22_C24_C25_ex` (`PropPf.v`) |
| C21 | Nodal balance at the slack bus | partial | As C20; witness with a second device at the slack bus. | `C17_C20_C21_C22_C24_C25_ex` (`PropPf.v`) |
| C22 | The slack bus voltage is the configured v_slack | partial | Invariant of the voltage vector; witness. | `C17_C20_C21_C22_C24_C25_ex` (`PropPf.v`) |
| C23 | Results do not depend on how buses are numbered | partial | Concrete networks for the refutation; every transition fails when IDs have gaps (any oracle). | `C23_ex` (`PropPf.v`) |
| C24 | Reported branch apparent power | partial | Complex algebra; witness at P_from = 0. | `C17_C20_C21_C22_C24_C25_ex` (`PropPf.v`) |
| C25 | Reported branch current magnitude | partial | Complex algebra; witness. | `C17_C20_C21_C22_C24_C25_ex` (`PropPf.v`) |
| C26 | Energy-loss decomposition | proved | Summation over branches of C16. | `C26_C27_ex` (`PropPf.v`) |
| C27 | Penalty is non-negative and zero exactly when constraints hold | partial | Iff between the penalty and a limit violation; witness. | `C26_C27_ex` (`PropPf.v`) |
| C28 | Per-step reward is bounded by the clipping parameters | proved | Order reasoning on `env_step`. | `ex_env_runs` (`ExProps.v`) |
| C29 | Terminal states are absorbing | proved | Invariant over histories of environment calls. | `ex_env_runs` (`ExProps.v`) |
| C30 | Collapsing is never better than staying alive | partial | Geometric series over any horizon; the refutation is a run of unbounded length. | the witnesses of the refutations; the runs of `ex_env_runs` (`ExProps.v`) |
| C31 | The units of one quantity describe the same physical value | partial | State dictionary lemmas for any history; witness for gen_p_max. | `C31_C58_ex` (`PropUnits.v`) |
| C32 | Bus injections respect the advertised bus bounds | proved | Sum over devices of C08/C09. | `C32_ex` (`PropSet.v`) |
| C33 | Simulator.reset erases history | proved | Frame lemmas: what calls read and write. | `C33_ex` (`PropSim.v`) |
| C34 | The state is Markov: a transition depends on the past only through the SoC | proved | As C33. | `C34_ex` (`PropSim.v`) |
| C35 | Save/restore: resetting to a reached state reproduces it | proved | Idempotence of each device mapping, then equality of the whole simulator object. | `C35_ex` (`PropRestore.v`) |
| C36 | Action vector layout matches the action space | proved | firstn/skipn/nth lemmas for any number of devices; any history. | `ex_env_runs` (`ExProps.v`) |
| C37 | Stochastic-variable vector layout and size check | proved | As C36. | `ex_env_runs` (`ExProps.v`) |
| C38 | State vector layout | proved | As C36. | `ex_env_runs` (`ExProps.v`) |
| C39 | Observations always belong to the observation space | proved | Clip lemma lifted to reset and step over any history. | `ex_env_runs` (`ExProps.v`) |
| C40 | Every accepted observation specification works | partial | Induction over the observation list; each documented tuple resolved against state and bounds. | `ex_env_obs` (`ExProps.v`), `ex_i_magn` (`ExProps.v`), `ex_neg_aux` (`ExProps.v`) |
| C41 | reset() succeeds as soon as one of at most 100 sampled initial states is non-terminal, else raises EnvInitializationError | partial | Induction over the sampling loop, arbitrary generator. | `ex_hundredth` (`ExProps.v`) |
| C42 | Step bookkeeping | proved | Invariant over histories. | `ex_env_runs` (`ExProps.v`) |
| C43 | Auxiliary variables are carried verbatim | proved | As C36. | `ex_env_runs` (`ExProps.v`) |
| C44 | ANM6Easy time-of-day index | proved | Arithmetic modulo 96 by induction over the run; binary64 by exhaustive evaluation of 97 values. | `C44_ex` (`ExFloat.v`) |
| C45 | Displayed date is in step with the time-of-day index | proved | Date arithmetic, induction over the run. | `C44_ex` (`ExFloat.v`) |
| C46 | ANM6Easy time series follow the documented scenarios | partial | Evaluation of the 96 values over exact rationals against the documented breakpoints (finite by nature). | the 96 rows are evaluated; no hypotheses |
| C47 | ANM6Easy initial SoC spans the storage capacity | partial | Evaluation of `easy_init_state` for every generator; witness for the documented uniformity. | `C44_ex` (`ExFloat.v`) |
| C48 | The MPC action is always an admissible action | proved | List lemmas on the action vector for any solver answer. | `C49_ex` (`ExMpc.v`) |
| C49 | The perfect forecast is perfect | proved | Induction over the run of ANM6Easy; periodic extension of the series by induction. | `C49_ex` (`ExMpc.v`) |
| C50 | The constant forecast repeats the current state | proved | List lemmas on the state read by the agent. | `C49_ex` (`ExMpc.v`) |
| C51 | MPC plans keep the planned SoC within bounds over the whole horizon and never over-estimate stored energy | proved | Every stage of a feasible plan satisfies each constraint (`plan_stage`); induction over the stages. | `C51_ex` (`ExPlan.v`) |
| C52 | MPC plans are power balanced | partial | Double sum over buses and branches of the DC flows; symmetry of the susceptances; witness. | `C52_ex` (`ExPlan.v`) |
| C53 | The MPC angle reference is the slack bus | partial | Positions in sorted lists; witness; IndexError theorem for every call. | `C53_ex` (`ExPlan.v`), `C53_unusable_ex` (`ExPlan.v`) |
| C54 | Frame skipping renders every (skip_frames+1)-th call | proved | Induction over rendering sessions. | `C54_ex` (`ExRender.v`) |
| C55 | At most one pair of rendering servers is alive, and close() stops it | partial | Invariant on the set of live servers over sessions; witnesses. | `C55_ex` (`ExRender.v`), `C55_start_ex` (`ExStart.v`) |
| C56 | Every connected browser is initialised before it is updated | partial | State machine of the web-socket server, any schedule; witness. | `C56_late_ex` (`PropRender.v`) |
| C57 | random_date stays within the requested year | proved | Date arithmetic for every draw. | `C57_ex` (`PropEasy.v`) |
| C58 | Reported angles are within their advertised bounds | proved | Range of atan2, any history; look-up of the advertised range; the slack voltage is real after a power flow. | `C58_within_ex` (`PropAngles.v`), `C31_C58_ex` (`PropUnits.v`) |
| C59 | Environment-argument validation | partial | Equivalence of the checks with a specification. | `ex_i_magn` (`ExProps.v`), `ex_neg_aux` (`ExProps.v`) |
| C60 | Determinism given the seed | proved | Two runs of the functional model are equal by frame lemmas. | `ex_seeded` (`ExProps.v`) |
| C61 | Callable observations work | partial | Every reset fails, any history. | `ex_callable` (`ExProps.v`) |
| C62 | A live step with admissible inputs returns | proved | Progress: composition of the success lemmas of each phase. | `ex_env_runs` (`ExProps.v`), `ex_env_obs` (`ExProps.v`) |
| C63 | ANM6Easy steps apply the documented demands and generation limits | proved | Composition of C44/C46 with the load and generator mappings. | `C44_ex` (`ExFloat.v`) |
| C64 | MPC plans satisfy the DC power flow | partial | stage constraint of each bus rewritten with the admittance table of C20 and the rows of the file (dc_out, SpecMpc.v) | `C64_ex` (`ExPlan.v`) |
| C65 | MPC actions are the plan, unclipped | proved | stage constraints read back through the device positions; clip_vec is the identity on points inside the action space | `C66_ex` (`ExExec.v`) |
| C66 | the environment executes MPC plans | proved | C65 for the action, gd_step_inv for the step, then the nearest-point theorems C04/C05: the planned point lies in the capability region | `C66_ex` (`ExExec.v`) |
| C68 | transitions and resets raise only for documented reasons | proved | lengths of the vectors of the Newton iteration (f, Jacobian, guess) by induction; one slack bus, so N-1 equations; the dictionary lookups by the construction invariants; the device phase by C06 and an invariant on the states of charge | `C68_ex` (`PropTotal.v`), `C68_refuted_ex` (`PropTotal.v`) |
| C67 | the MPC agents solve the documented optimal power flow | partial | every constraint of the agent is shown equivalent to one constraint of an independent specification indexed by IDs (SpecOpf.v), the objective is computed by induction over the stages | `C67_ex` (`ExOpf.v`), `C67_ex_env` (`ExOpf.v`) |
| C69 | what a converged simulator reports is finite | proved | the device phase returns finite set-points although limits may be infinite; the converged power flow gives finite voltages and currents (C20); every reported quantity is then an arithmetic expression in them, case by case | `C69_ex` (`PropFin.v`) |
| C70 | episodes never raise | proved | invariant over the history: either the episode has ended, or the stored state is a full-size vector of numbers and the states of charge are within limits; C68 then makes the simulator return, C69 makes the observation NaN-free, C62 turns this into a returned value; the sampling loop is unfolded by induction on its budget | `C70_ex` (`PropEpisode.v`) |
| C71 | a reset applies the state vector it is given | proved | a returning reset is shown to be a transition on dictionaries read from the vector by position, from a simulator with empty/full batteries, up to the reported states of charge; the per-device theorems of C04, C05, C07, C08 then apply | `C71_ex` (`PropResetIn.v`) |
| C72 | the calendar of ANM6 environments | partial | induction on the calls since the reset | `C72_ex` (`ExDates.v`) |
| C73 | dates and rendering do not influence the physics | proved | two-run invariant (same environment, or same up to the generator) by induction over the two histories; renderings are absorbed on either side | `C73_ex` (`ExDates.v`) |
| C75 | exactly the valid network files are accepted | proved | well_formed <-> check_network_specs, row validity <-> constructors, and totality of the admittance-matrix construction (every index written is inside the matrix sized by the largest ID) | `C75_ex` (`PropMake.v`) |
| C74 | ANM6Easy can be built, its calls return, its rewards are bounded | proved | the 6-bus network is shown to meet the documented conditions, init_state and next_vars to honour the contract of C70 (finite tables, index in [0,96)), then the episode invariant of C70 and the clipping bounds of C28 along ANM6Easy histories | `C74_run_ex` (`ExEasy.v`), `C74_ex` (`PropEasy4.v`) |
| C76 | the order of the rows of a network file does not matter | proved | sorting by unique IDs is independent of the order; the admittance matrix is a sum over branches, rearranged with associativity and commutativity of exact addition; a simulation relation 'same up to the order of branches' is kept by transition, reset and step | `C76_ex` (`ExOrder.v`) |
| C77 | the power exchanged with the main grid is never NaN and is the same at bus and device | proved | every stored state was gathered after a completed power flow; there the slack bus takes inf in place of NaN and the slack device copies the bus of the same ID, which the file check forces to be the slack bus | `C77_ex` (`ExSlack.v`) |
| C78 | the message that opens a rendering describes the network of the environment | proved | the message is unfolded into lists indexed by the elements of the simulator; each list is compared with the bound tables, which C26-style lemmas relate to the rows of the file | `C79_ex` (`ExMessage.v`) |
| C79 | every number sent to the browser is JSON | partial | each list of C78 is checked for finiteness; frames reuse the finiteness of observations of C69; the refutations are executions | `C79_ex` (`ExMessage.v`) |
| C80 | a lightly loaded network never collapses | proved | the iterates of Newton's method are bounded by induction: a deviation r halves the residual, because the Jacobian stays invertible on the ball (impedance matrix) and the second-order terms are bounded by the admittances; every connected network of plain lines has an impedance matrix because a vector of voltages that drives no current is constant (the losses are positive) | `C80_ex` (`PropLight.v`) |
| C81 | the simple example environment never fails | proved | C80_simple_network (the power flow always converges on this network), the totality theorems of the environment (C23, C58) and the bounds of the reward (C28) | `C81_draws_ex` (`PropDrawn.v`) |
| C82 | the custom ANM6 example does what it says | partial | inversion of a returned step (the inputs of the transition by position), clamping of demands and potentials (C07, C09), the values shown by the observation (C40), induction on the number of steps for the index | `C82_ex` (`ExCustom.v`) |
| C83 | the MPC agents never fail on ANM6Easy | proved | Bolzano-Weierstrass in finitely many coordinates (ProofAtt), continuity of every constraint and of the cost and boundedness of the feasible set (ProofAtt2, ProofAtt3: storage powers are bounded because the state of charge is and efficiencies are below 1, angles by pi, slack power by the balance), an explicit feasible plan for the 6-bus network (ProofAct: everything from the slack bus), an invariant of episodes giving the values that the agent reads (C63, C46, C74) | `C83_ex` (`PropAct.v`) |
| C84 | a network file is read cell by cell | partial | a second model of construction starting from arrays of cells (RawNet); step-by-step equality with the row model for whole IDs; facts of dictionaries filled row by row for arbitrary cells; two concrete files for the refutations | `C84_ex` (`PropRaw.v`) |
| C85 | the page shows the last frame | partial | model of the scripts as writes to a map of the attributes of the drawing (Page), with the element IDs of network.svg; blocks of writes on disjoint IDs; Gregorian calendar by 400-year cycles | `C85_ex` (`PropPage.v`) |
| C86 | the browser shows the environment, and its red crosses agree with the penalty | partial | composition: sent updates picture earlier moments (C54), the first message is constant (C78), both have the sizes of the drawing, so C85 applies; the penalty is a sum of excesses, zero exactly when every voltage and flow is within the limits that the first message announces, after the solved power flow (C27) | `C86_ex` (`ExShow.v`) |
| C87 | penalties and rewards in binary64 | proved | LibF64.v: a binary64 operation is the exact operation on extended reals followed by rounding (from the specification of Coq's primitive floats through Flocq); rounding is monotone, fixes binary64 numbers, and by gradual underflow never takes the difference of two different numbers to 0. Then induction over the sums, and the inversion of a step (C28) | `C87_penalty_ex` (`ExF64.v`), `C87_easy_ex` (`ExF64.v`) |
| C88 | units and bounds agree in binary64 | proved | LibF64.v: multiplication and division by a positive finite number, rounded, keep the order; pi * 180 / pi computes to exactly 180 in binary64 | `C88_ex` (`ExUnits64.v`), `C88_soc_ex` (`ExUnits64.v`) |
| C89 | stored energy in binary64 | proved | each rounded operation is monotone (LibF64.v): dt*eff <= dt and (dt*p)/eff >= dt*p also after rounding; induction over the transitions with the comparison to the lossless unit as invariant | `C89_ex` (`ExStor64.v`) |
| C90 | the example agents run to the end | proved | the invariant of C83, extended to ended episodes (the values that the agent reads are those of the collapse, the time of day reads 0), and an invariant on the rendering attributes; induction over the iterations | `C90_ex` (`PropScript.v`) |
| C91 | the state vector determines the future | proved | a relation between two environments that share constants, state vector, stored energies and generator, preserved by step with equal answers; the state vector in MWh determines the stored energy since the base power is positive; induction over the actions | `C91_ex` (`PropMarkov.v`) |
| C92 | ANM6Easy is fully observable | proved | C40's list of observed entries is the layout of the state vector (C38); the day of C63, the ranges of C08 and C09 and the clipping of the stored energy put every entry but the slack's within the concrete bounds, where clipping is the identity | `C92_run_ex` (`ExState.v`), `C92_ex` (`PropState.v`) |
| C93 | the documented do-nothing action does nothing | proved | (potential, 0) is in the region of the generator and nearest to (30, 0) or (50, 0); C04's uniqueness makes it the result; (0, 0) is in the region of the storage unit for every stored energy in range, so C05 returns it and the energy update adds 0 | `C93_run_ex` (`ExIdle.v`), `C93_ex` (`PropIdle.v`) |
| C94 | reported set-points can be sent back | proved | a point returned by a sound solver satisfies its rows, so a complete and exact solver asked for it returns it (conversion to MW and back is exact); device by device the two transitions then agree, and so do all later computations; C09 puts the reported values into the action space | `C94_ex` (`ExResend.v`), `C94_step_ex` (`ExResend.v`) |

## 5. Findings (claims that are false of the code)

| claim | what happens | theorem |
|---|---|---|
| C02 | `reset` copies the SoC of the state vector without clipping | `C02_refuted` |
| C06 | a generator without PMAX, or a storage unit with efficiency 0, is accepted and then every transition fails | `C06_no_pmax_always_fails`, `C06_eff0_always_fails` |
| C09 | reactive bounds of a load with Q/P < 0 are inverted | `C09_refuted` |
| C10, C12 | PMAX of loads is compared and stored in MW, not p.u. | `C10_load_refuted`, `C12_load_refuted` |
| C21 | slack balance ignores other devices at the slack bus | `C21_slack_balance_refuted` |
| C22 | the slack voltage is 1 p.u. whatever VMAX says | `C22_slack_voltage_refuted` |
| C23 | bus IDs must be 0..N-1 with the slack first; gaps make every transition raise | `C23_numbering_refuted`, `C23_gap_always_fails` |
| C24, C27 | apparent power, hence the overload penalty, is 0 when P_from = 0 | `C24_branch_s_refuted`, `C27_penalty_refuted` |
| C25 | branch current magnitude is its real part | `C25_branch_current_refuted` |
| C30 | collapsing can be better than surviving; gamma = 1 divides by zero | `C30_collapse_better_refuted`, `C30_gamma_one_refuted` |
| C31 | upper bound of `gen_p_max` is that of Q | `C31_gen_p_max_refuted` |
| C40, C59 | `branch_i_magn` without unit raises KeyError; negative aux index reads another entry | `C40_branch_i_magn_refuted`, `C40_negative_aux_refuted` |
| C41 | success at the 100th sample is discarded; wrong exception | `C41_hundredth` |
| C46 | PV above its PMAX and wind ramp of the documented scenario | `C46_pv_refuted`, `C46_wind_refuted` |
| C47 | initial SoC and Q of ANM6Easy are drawn in p.u. where MW are expected | `C47_refuted`, `C47_sample_refuted` |
| C52 | MPC plans are not balanced with a lossy phase shifter | `C52_balanced_refuted` |
| C53 | the MPC angle reference is a device position, not the slack bus | `C53_reference_refuted`, `C53_unusable` |
| C64 | the MPC agent reads the admittance matrix by bus position, so gaps in the bus IDs give it wrong susceptances | `C64_dc_flow_refuted`, `C64_gap_infeasible` |
| C68 | a network with one bus, or whose slack bus gives no VMIN, is accepted but every power flow raises | `C68_single_bus_refuted`, `C68_slack_vmin_refuted` |
| C55 | rendering servers leak; after a failed start `render` never retries | `C55_render_before_reset_refuted`, `C55_failed_reset_refuted`, `C55_failed_start_refuted` |
| C56 | an early browser gets updates without init | `C56_early_client_refuted` |
| C57 | January 1st is never drawn | `C57_first_day_never` |
| C61 | callable observations returning float64 fail at every reset | `C61_callable_refuted` |
| C72 | `reset_date` does not reset the year count | `C72_year_count_refuted` |
| C73 | passing `date_init` changes the random initial states of later unseeded resets | `C73_unseeded_refuted` |
| C75 | negative bus IDs: a file that obeys every rule is refused, or accepted with an admittance matrix that lacks rows | `C75_negative_ids_refuted` |
| C76 | with binary64 the order of the branch rows changes the last digits of observations and rewards | `C76_binary64_refuted` |
| C78 | a file without VMIN on the slack bus is accepted, but `get_rendering_specs` raises TypeError | `C78_slack_vmin_refuted` |
| C79 | without `costs_clipping` the first rendering message contains `Infinity`; the default range of the cost bars is dead code | `C79_default_costs_refuted` |
| C79 | the frame of a collapsed network contains `NaN`, so the browser never shows the collapse | `C79_collapse_refuted` |
| C82 | `examples/custom_anm6.py` returns its random variables in the wrong order: the industrial complex never draws power and the wind farm never has wind | `C82_devices_refuted` |
| C82 | `examples/custom_anm6.py` hides the time of day from the agent after the tenth step (`aux_bounds` is [0, 10]) | `C82_time_refuted` |
| C84 | IDs that differ only after the decimal point are accepted and all but the last of the devices (or buses) of the same integer part disappear | `C84_device_lost_refuted` |
| C84 | a bus of type 0.5 is not counted as a slack bus and becomes a second one | `C84_second_slack_refuted` |
| C85 | the bar of a branch loaded below 0.5 % keeps the colour of an earlier frame (`colorGradient[-1]` is undefined) | `C85_stale_color_refuted` |
| C86 | the picture of a reset can show a red cross beside a penalty of 0: `reset` announces no cost | `C86_after_reset_refuted` |

Also seen while reading, without a theorem: `docs/source/topics/anm6_easy.rst` documents a penalty factor of 10^3 for ANM6Easy, the code (anm6_easy.py 16) uses 100,
and the model follows the code.

## 6. Trusted base

* Coq 8.16.1's kernel, including its virtual machine and primitive floats and
  integers (`vm_compute` and binary64 runs).
* The faithfulness of the hand-written model to the Python text, in particular
  the rules for numpy and gymnasium quoted in the comments (numpy 2.1.3,
  gymnasium 1.0.0, scipy 1.14.1, cvxpy 1.6.0, Python 3.11).
* The axioms of the standard library that `Print Assumptions` lists, by class:
  * `-`: none ("Closed under the global context");
  * `R`: among `ClassicalDedekindReals.sig_forall_dec`,
    `ClassicalDedekindReals.sig_not_dec`, `Classical_Prop.classic`,
    `FunctionalExtensionality.functional_extensionality_dep` (the reals);
  * `RC`: `R` and `ClassicalUniqueChoice.dependent_unique_choice`,
    `RelationalChoice.relational_choice` (existence of an exact QP solver);
  * `RE`: `R`, `ClassicalEpsilon.constructive_indefinite_description` (standard library; an exact linear solver and an impedance matrix are chosen among those that exist) and, for `C81_solvers_exist`, also the two choice axioms of `RC`;
  * `F`: the primitives of `PrimFloat` and `PrimInt63` and the specifications
    `FloatAxioms.eqb_spec`, `ltb_spec`, `leb_spec`;
  * `FR`: `R`, `F` and the specifications of the primitive operations in
    `FloatAxioms` (`add_spec`, `sub_spec`, `mul_spec`, `div_spec`, `opp_spec`,
    `abs_spec`, `Prim2SF_valid`, `SF2Prim_Prim2SF`, `Prim2SF_SF2Prim`): binary64
    operations are the exact ones, rounded.

No axiom is added, no functor, module type or section-less variable is used.
Libraries: the standard library, and definitions and lemmas of Coquelicot
(complex numbers, derivatives) and of Flocq (rounding, binary64), which add no axiom.

### Axioms of each theorem

| theorem | file | property | axioms |
|---|---|---|---|
| `C01_soc_in_range` | `PropSim.v` | C01 | - |
| `C01_soc_in_range_exact` | `PropSim.v` | C01 | R |
| `C01_soc_in_range_float` | `PropSim.v` | C01 | F |
| `C03_energy_balance` | `PropSet.v` | C01 | R |
| `C02_refuted` | `PropSim.v` | C02 | R |
| `C02_reset_soc_copied` | `PropSim.v` | C02 | - |
| `C03_soc_step` | `PropSet.v` | C03 | R |
| `C04_generator_nearest` | `PropSet.v` | C04 | R |
| `C05_storage_nearest` | `PropSet.v` | C05 | R |
| `C06_mapping_succeeds` | `PropSet.v` | C06 | RC |
| `C06_solver_exists` | `PropSet.v` | C06 | RC |
| `C06_no_pmax_always_fails` | `PropSet.v` | C06 | R |
| `C06_eff0_always_fails` | `PropSet.v` | C06 | R |
| `C06_refuted` | `PropSet.v` | C06 | R |
| `C07_loads` | `PropSet.v` | C07 | - |
| `C08_potential` | `PropSet.v` | C08 | R |
| `C09_flexible_bounds` | `PropSet.v` | C09 | R |
| `C09_load_bounds` | `PropSet.v` | C09 | R |
| `C09_refuted` | `PropSet.v` | C09 | R |
| `C10_per_unit` | `PropUnits.v` | C10 | R |
| `C10_load_refuted` | `PropUnits.v` | C10 | R |
| `C11_network_validation` | `PropNet.v` | C11 | - |
| `C11_network_error` | `PropNet.v` | C11 | - |
| `C12_device_validation` | `PropDev.v` | C12 | R |
| `C12_gen_stor_validation` | `PropDev.v` | C12 | R |
| `C12_load_refuted` | `PropDev.v` | C12 | R |
| `C13_branch_validation` | `PropDev.v` | C13 | R |
| `C13_bus_validation` | `PropDev.v` | C13 | R |
| `C14_order_and_counts` | `PropUnits.v` | C14 | - |
| `C15_kcl` | `PropPf.v` | C15 | R |
| `C16_passive` | `PropPf.v` | C16 | R |
| `C17_pfe_holds` | `PropPf.v` | C17 | R |
| `C18_newton` | `PropPf.v` | C18 | - |
| `C18_no_nan` | `PropPf.v` | C18 | R |
| `C19_jacobian` | `PropJac.v` | C19 | R |
| `C20_power_balance` | `PropPf.v` | C20 | R |
| `C21_slack_balance_partial` | `PropPf.v` | C21 | R |
| `C21_slack_balance_refuted` | `PropPf.v` | C21 | R |
| `C22_slack_voltage_partial` | `PropPf.v` | C22 | R |
| `C22_slack_voltage_refuted` | `PropPf.v` | C22 | R |
| `C23_numbering_refuted` | `PropPf.v` | C23 | R |
| `C23_gap_always_fails` | `PropPf.v` | C23 | R |
| `C24_branch_s_partial` | `PropPf.v` | C24 | R |
| `C24_branch_s_refuted` | `PropPf.v` | C24 | R |
| `C25_branch_current_partial` | `PropPf.v` | C25 | R |
| `C25_branch_current_refuted` | `PropPf.v` | C25 | R |
| `C26_energy_loss` | `PropPf.v` | C26 | R |
| `C27_penalty_partial` | `PropPf.v` | C27 | R |
| `C27_penalty_refuted` | `PropPf.v` | C27 | R |
| `C28_simulator_reward` | `PropReward.v` | C28 | - |
| `C28_step_reward` | `PropReward.v` | C28 | R |
| `C28_unlimited` | `PropReward.v` | C28 | R |
| `C28_reward_bounds` | `PropReward.v` | C28 | R |
| `C29_absorbing` | `PropEnv.v` | C29 | - |
| `C30_collapse_better_refuted` | `PropCollapse.v` | C30 | R |
| `C30_gamma_one_refuted` | `PropCollapse.v` | C30 | R |
| `C30_collapse_partial` | `PropCollapse.v` | C30 | R |
| `C31_state_power_units` | `PropUnits.v` | C31 | - |
| `C31_state_angle_units` | `PropUnits.v` | C31 | - |
| `C31_state_bus_units` | `PropUnits.v` | C31 | - |
| `C31_bound_power_units` | `PropUnits.v` | C31 | R |
| `C31_bound_angle_units` | `PropUnits.v` | C31 | R |
| `C31_bound_voltage_units` | `PropUnits.v` | C31 | R |
| `C31_gen_p_max_refuted` | `PropUnits.v` | C31 | R |
| `C32_bus_bounds` | `PropSet.v` | C32 | R |
| `C33_reset_erases_history` | `PropSim.v` | C33 | - |
| `C34_markov` | `PropSim.v` | C34 | - |
| `C35_save_restore` | `PropRestore.v` | C35 | R |
| `C36_action_layout` | `PropEnv.v` | C36 | - |
| `C37_next_vars` | `PropEnv.v` | C37 | - |
| `C38_state_layout` | `PropEnv.v` | C38 | - |
| `C39_in_space` | `PropObs.v` | C39 | - |
| `C40_observation_list_partial` | `PropObs.v` | C40 | - |
| `C40_branch_i_magn_refuted` | `PropReset.v` | C40 | - |
| `C40_negative_aux_refuted` | `PropReset.v` | C40 | - |
| `C41_reset_sampling_partial` | `PropReset.v` | C41 | - |
| `C41_hundredth` | `PropReset.v` | C41 | - |
| `C42_bookkeeping` | `PropEnv.v` | C42 | - |
| `C43_aux_verbatim` | `PropEnv.v` | C43 | - |
| `C44_time_index` | `PropEasy.v` | C44 | - |
| `C44_period` | `PropEasy.v` | C44 | - |
| `C45_dates` | `PropEasy.v` | C45 | - |
| `C46_series_partial` | `PropEasy.v` | C46 | R |
| `C46_pv_refuted` | `PropEasy.v` | C46 | R |
| `C46_wind_refuted` | `PropEasy.v` | C46 | R |
| `C47_initial_sample` | `PropEasy2.v` | C47 | - |
| `C47_initial_soc` | `PropEasy2.v` | C47 | - |
| `C47_refuted` | `PropEasy2.v` | C47 | R |
| `C47_sample_refuted` | `PropEasy2.v` | C47 | R |
| `C48_action` | `PropMpc.v` | C48 | - |
| `C49_perfect_forecast` | `PropMpc.v` | C49 | - |
| `C49_forecast_happens` | `PropMpc.v` | C49 | R |
| `C50_constant_forecast` | `PropMpc.v` | C50 | - |
| `C51_plan_soc` | `PropPlan.v` | C51 | R |
| `C52_balanced_partial` | `PropPlan.v` | C52 | R |
| `C52_balanced_refuted` | `ExPlan.v` | C52 | R |
| `C53_reference_partial` | `PropPlan.v` | C53 | R |
| `C53_reference_refuted` | `ExPlan.v` | C53 | R |
| `C53_unusable` | `PropPlan.v` | C53 | R |
| `C54_every_kth_call` | `PropRender.v` | C54 | - |
| `C55_servers_partial` | `PropRender.v` | C55 | - |
| `C55_render_before_reset_refuted` | `PropRender.v` | C55 | - |
| `C55_failed_reset_refuted` | `PropRender.v` | C55 | - |
| `C55_failed_start_refuted` | `PropStart.v` | C55 | - |
| `C56_late_client_partial` | `PropRender.v` | C56 | - |
| `C56_early_client_refuted` | `PropRender.v` | C56 | - |
| `C56_refuted` | `PropRender.v` | C56 | - |
| `C57_random_date` | `PropEasy.v` | C57 | - |
| `C57_first_day_never` | `PropEasy.v` | C57 | - |
| `C58_angles_in_range` | `PropUnits.v` | C58 | R |
| `C58_advertised_ranges` | `PropAngles.v` | C58 | R |
| `C58_within_advertised` | `PropAngles.v` | C58 | R |
| `C59_argument_checks` | `PropReset.v` | C59 | - |
| `C60_seeded` | `PropReset.v` | C60 | - |
| `C61_callable_refuted` | `PropReset.v` | C61 | - |
| `C62_step_returns` | `PropReward.v` | C62 | - |
| `C63_step_values` | `PropEasy2.v` | C63 | R |
| `C63_reset_values` | `PropEasy3.v` | C63 | R |
| `C64_dc_flow_partial` | `PropDc.v` | C64 | R |
| `C64_dc_flow_refuted` | `ExPlan.v` | C64 | R |
| `C64_gap_infeasible` | `ExPlan.v` | C64 | R |
| `C65_plan_limits` | `PropExec.v` | C65 | R |
| `C65_action_is_plan` | `PropExec.v` | C65 | R |
| `C66_plan_executed` | `PropExec.v` | C66 | R |
| `C68_transition_errors` | `PropTotal.v` | C68 | - |
| `C68_reset_errors` | `PropTotal.v` | C68 | - |
| `C68_reset_never_raises` | `PropTotal.v` | C68 | RC |
| `C68_transitions_never_raise` | `PropTotal.v` | C68 | RC |
| `C68_single_bus_refuted` | `PropTotal.v` | C68 | - |
| `C68_slack_vmin_refuted` | `PropTotal.v` | C68 | - |
| `C68_linear_solver_exists` | `PropTotal.v` | C68 | - |
| `C67_problem_partial` | `PropOpf.v` | C67 | R |
| `C67_generation_partial` | `PropOpf.v` | C67 | R |
| `C67_optimal_partial` | `PropOpf.v` | C67 | R |
| `C69_state_finite` | `PropFin.v` | C69 | R |
| `C69_reward_finite` | `PropFin.v` | C69 | R |
| `C70_episodes_return` | `PropEpisode.v` | C70 | RC |
| `C70_nothing_raises` | `PropEpisode.v` | C70 | RC |
| `C71_reset_loads` | `PropResetIn.v` | C71 | - |
| `C71_reset_potentials` | `PropResetIn.v` | C71 | R |
| `C71_reset_generators` | `PropResetIn.v` | C71 | R |
| `C71_reset_storage` | `PropResetIn.v` | C71 | R |
| `C72_calendar` | `PropDates.v` | C72 | - |
| `C72_reset_date` | `PropDates.v` | C72 | - |
| `C72_year_count_kept` | `PropDates.v` | C72 | - |
| `C72_year_count_refuted` | `ExDates.v` | C72 | F |
| `C73_dates_irrelevant` | `PropDates.v` | C73 | - |
| `C73_random_start` | `PropDates.v` | C73 | - |
| `C73_easy_start` | `PropDates.v` | C73 | - |
| `C73_unseeded_refuted` | `ExDates.v` | C73 | F |
| `C75_constructed_iff_valid` | `PropMake.v` | C75 | R |
| `C75_negative_ids_refuted` | `PropMake.v` | C75 | R |
| `C74_constructed` | `PropEasy4.v` | C74 | R |
| `C74_easy_resets` | `PropEasy4.v` | C74 | RC |
| `C74_easy_returns` | `PropEasy4.v` | C74 | RC |
| `C74_easy_rewards` | `PropEasy4.v` | C74 | R |
| `C76_bus_device_order` | `PropOrder.v` | C76 | - |
| `C76_row_order` | `PropOrder.v` | C76 | R |
| `C76_env_row_order` | `PropOrder.v` | C76 | R |
| `C76_binary64_refuted` | `ExOrder.v` | C76 | F |
| `C77_slack_power` | `PropSlack.v` | C77 | - |
| `C77_exact` | `ExSlack.v` | C77 | R |
| `C77_binary64` | `ExSlack.v` | C77 | F |
| `C78_message` | `PropMessage.v` | C78 | - |
| `C78_rates` | `PropMessage.v` | C78 | R |
| `C78_slack_vmin_refuted` | `ExMessage.v` | C78 | F |
| `C79_default_costs_refuted` | `PropMessage.v` | C79 | R |
| `C79_collapse_refuted` | `ExMessage.v` | C79 | F |
| `C79_message_partial` | `PropMessage.v` | C79 | R |
| `C79_frame_partial` | `PropMessage.v` | C79 | R |
| `C80_light_load` | `PropLight.v` | C80 | R |
| `C80_light_enough` | `PropLight.v` | C80 | RE |
| `C80_solver_exists` | `PropLight.v` | C80 | RE |
| `C80_simple_network` | `PropLight.v` | C80 | R |
| `C81_simple_environment` | `PropSimple.v` | C81 | RC |
| `C81_solvers_exist` | `PropSimple.v` | C81 | RE |
| `C81_draws` | `PropDrawn.v` | C81 | - |
| `C82_built` | `PropCustom.v` | C82 | R |
| `C82_devices_refuted` | `PropCustom.v` | C82 | R |
| `C82_time_refuted` | `PropCustom.v` | C82 | R |
| `C82_draws` | `PropDrawn.v` | C82 | - |
| `C83_attained` | `PropAct.v` | C83 | RE |
| `C83_solver` | `PropAct.v` | C83 | RE |
| `C83_agent_built` | `PropAct.v` | C83 | R |
| `C83_mpc_never_fails` | `PropAct.v` | C83 | RE |
| `C83_closed_loop` | `PropAct.v` | C83 | RE |
| `C84_written` | `PropRaw.v` | C84 | - |
| `C84_written_exact` | `PropRaw.v` | C84 | R |
| `C84_accepted` | `PropRaw.v` | C84 | - |
| `C84_device_lost_refuted` | `PropRaw.v` | C84 | R |
| `C84_second_slack_refuted` | `PropRaw.v` | C84 | R |
| `C85_never_raises` | `PropPage.v` | C85 | - |
| `C85_drawn` | `PropPage.v` | C85 | R |
| `C85_last_update_partial` | `PropPage.v` | C85 | - |
| `C85_stale_color_refuted` | `PropPage.v` | C85 | R |
| `C86_any_history` | `PropShow.v` | C86 | - |
| `C86_shows` | `PropShow.v` | C86 | R |
| `C86_alarm` | `PropShow.v` | C86 | R |
| `C86_after_reset_refuted` | `ExShow.v` | C86 | F |
| `C87_penalty` | `PropF64.v` | C87 | FR |
| `C87_penalty_sign` | `PropF64.v` | C87 | FR |
| `C87_reward` | `PropF64.v` | C87 | FR |
| `C87_collapse` | `PropF64.v` | C87 | FR |
| `C87_easy` | `PropF64.v` | C87 | FR |
| `C88_power` | `PropUnits64.v` | C88 | FR |
| `C88_angle` | `PropUnits64.v` | C88 | FR |
| `C88_voltage` | `PropUnits64.v` | C88 | FR |
| `C88_current` | `PropUnits64.v` | C88 | FR |
| `C88_soc` | `PropUnits64.v` | C88 | FR |
| `C88_degrees` | `PropUnits64.v` | C88 | FR |
| `C89_history` | `PropStor64.v` | C89 | FR |
| `C89_idle` | `PropStor64.v` | C89 | FR |
| `C90_mpc_script` | `PropScript.v` | C90 | RE |
| `C90_random_agent` | `PropScript.v` | C90 | RC |
| `C91_markov` | `PropMarkov.v` | C91 | R |
| `C91_easy` | `PropMarkov.v` | C91 | R |
| `C92_observed` | `PropState.v` | C92 | R |
| `C93_do_nothing` | `PropIdle.v` | C93 | R |
| `C93_idle_episode` | `PropIdle.v` | C93 | R |
| `C94_transition` | `PropResend.v` | C94 | R |
| `C94_step` | `PropResend.v` | C94 | R |
