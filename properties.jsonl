{"id": "C01", "title": "State of charge never leaves its declared range", "statement": "After Simulator.reset with an initial state whose SoC entries are inside [SOC_MIN, SOC_MAX], the state of charge reported for every storage unit after any sequence of Simulator.transition calls (successful or raising) is inside [SOC_MIN, SOC_MAX] (or is NaN if the QP solver returned NaN), whatever set-points are requested and whatever the external QP and sparse solvers return.", "quantifier": "all accepted networks, all histories of transition calls with arbitrary inputs, all behaviours of the external solvers, exact and IEEE-754 arithmetic", "why_tests_cant": "unbounded histories and adversarial solver results; tests sample a few set-points with one solver", "anchors": ["gym_anm/simulator/components/devices.py:StorageUnit.map_pq,StorageUnit.update_soc", "gym_anm/simulator/simulator.py:Simulator.transition,Simulator.reset"]}
{"id": "C02", "title": "reset() leaves the storage units in their declared range", "statement": "After Simulator.reset(s0) returns, the reported SoC of every storage unit lies in [SOC_MIN, SOC_MAX] for every init_state s0 of the right size.", "quantifier": "all init_state vectors", "why_tests_cant": "requires all reals as SoC entries, including out-of-range ones that no test supplies", "anchors": ["gym_anm/simulator/simulator.py:Simulator.reset"]}
{"id": "C03", "title": "Storage energy accounting: no free energy", "statement": "For a storage unit operated through feasible set-points from an in-range SoC, the stored energy changes by exactly -eff*p*dt when charging and -p*dt/eff when discharging (the final clip is inactive), and over any history the energy delivered to the grid is at most eff*(initial stored energy - final stored energy) + eff^2 * energy taken from the grid.", "quantifier": "all specs with 0 < EFF <= 1, all finite sequences of feasible injections, all dt > 0", "why_tests_cant": "a cumulative bound over histories of every length", "anchors": ["gym_anm/simulator/components/devices.py:StorageUnit.update_soc,StorageUnit.map_pq"]}
{"id": "C04", "title": "A generator set-point is mapped to the closest feasible point", "statement": "Generator.map_pq moves any requested (p, q) to the unique point of the documented capability region (P between PMIN and min(PMAX, potential), Q between QMIN and QMAX, below the line (P+,QMAX)-(PMAX,Q+) and above the line (P+,QMIN)-(PMAX,Q-)) that is closest to the request; a feasible request is left unchanged.", "quantifier": "all accepted finite generator specs, all potentials, all requests", "why_tests_cant": "continuum of requests and specs; optimality quantifies over the whole region", "anchors": ["gym_anm/simulator/components/devices.py:Generator.map_pq,Generator._check_type_specific_specs"]}
{"id": "C05", "title": "A storage set-point is mapped to the closest feasible point", "statement": "StorageUnit.map_pq moves any requested (p, q) to the unique closest point of the documented region: P in [PMIN,PMAX], Q in [QMIN,QMAX], cut by the four corner lines through (P+,QMAX)-(PMAX,Q+), (P+,QMIN)-(PMAX,Q-), (P-,QMIN)-(PMIN,Q-), (P-,QMAX)-(PMIN,Q+), and such that the state of charge after dt stays in [SOC_MIN, SOC_MAX]; a feasible request is left unchanged.", "quantifier": "all accepted finite storage specs, all in-range SoC, all dt > 0, all requests", "why_tests_cant": "continuum of requests, SoC values and specs", "anchors": ["gym_anm/simulator/components/devices.py:StorageUnit.map_pq"]}
{"id": "C06", "title": "Mapping a set-point never fails on an accepted device", "statement": "For every device spec accepted at construction, and every reachable SoC, the set of feasible injections is non-empty and all constraint coefficients are ordinary numbers, so that map_pq has a solution.", "quantifier": "all accepted device rows, including rows with None (infinite) limits", "why_tests_cant": "every combination of optional limits and boundary efficiencies", "anchors": ["gym_anm/simulator/components/devices.py:Generator._check_type_specific_specs,StorageUnit._check_type_specific_specs,Generator.map_pq,StorageUnit.map_pq"]}
{"id": "C07", "title": "Loads only withdraw power, at constant Q/P ratio", "statement": "Load.map_pq(p) applies P = p clamped to [PMIN, PMAX] (p.u.) and Q = (Q/P) * P; P is never positive.", "quantifier": "all accepted load rows, all requests", "why_tests_cant": "all reals, float and exact semantics", "anchors": ["gym_anm/simulator/components/devices.py:Load.map_pq,Load._check_type_specific_specs"]}
{"id": "C08", "title": "Generation never exceeds the potential; curtailment is non-negative", "statement": "After a transition, the potential reported for a non-slack generator is the requested potential clamped to [PMIN, PMAX], and the applied active power never exceeds it, so each renewable unit's curtailment cost is potential - P >= 0.", "quantifier": "all accepted networks, all inputs", "why_tests_cant": "all inputs", "anchors": ["gym_anm/simulator/components/devices.py:Generator.p_pot,Generator.map_pq", "gym_anm/simulator/simulator.py:Simulator.transition,Simulator._compute_reward"]}
{"id": "C09", "title": "Device injections respect the advertised device bounds", "statement": "After every transition the P and Q of every non-slack device lie within the bounds returned for dev_p and dev_q by Simulator.get_state_space().", "quantifier": "all accepted networks, all histories", "why_tests_cant": "all accepted device parameters (incl. sign of Q/P)", "anchors": ["gym_anm/simulator/simulator.py:Simulator.get_state_space,Simulator.transition", "gym_anm/simulator/components/devices.py"]}
{"id": "C10", "title": "Network-file power limits are converted to per-unit", "statement": "For every accepted device, the p.u. limit used by the simulator equals the MW/MVAr limit of the network file divided by baseMVA.", "quantifier": "all accepted device rows, all baseMVA > 0", "why_tests_cant": "all baseMVA; tests use PMAX = 0 for loads", "anchors": ["gym_anm/simulator/components/devices.py"]}
{"id": "C11", "title": "Network-level validation accepts exactly the well-formed networks", "statement": "check_network_specs succeeds if and only if baseMVA > 0, there is exactly one slack bus and one slack device attached to it, bus IDs and device IDs are unique, no branch is a self-loop, no two branches link the same pair of buses, and every branch end is an existing bus; otherwise the error is the one of the first violated rule.", "quantifier": "all network dictionaries", "why_tests_cant": "all networks of every size", "anchors": ["gym_anm/simulator/check_network.py:check_network_specs"]}
{"id": "C12", "title": "Device validation accepts exactly the documented specs", "statement": "Load/Generator/StorageUnit construction succeeds if and only if the row's limits satisfy the documented inequalities (PMIN <= P- <= P+ <= PMAX, QMIN <= Q- <= Q+ <= QMAX, sign rules, 0 <= SOC_MIN <= SOC_MAX, 0 <= EFF <= 1, known bus, right type); every constructed device then satisfies them in p.u.", "quantifier": "all device rows", "why_tests_cant": "all combinations of 15 optional columns", "anchors": ["gym_anm/simulator/components/devices.py"]}
{"id": "C13", "title": "Branch and bus validation accepts exactly the documented specs", "statement": "TransmissionLine construction succeeds iff both ends are known buses, r,x,b >= 0, (r,x) != 0, RATE >= 0, TAP > 0, SHIFT in [0,360]; Bus construction succeeds iff BUS_TYPE in {0,1}, BASE_KV > 0, VMAX >= 0 and, unless slack, 0 <= VMIN <= VMAX.", "quantifier": "all branch and bus rows", "why_tests_cant": "all rows", "anchors": ["gym_anm/simulator/components/branch.py:TransmissionLine._check_input_specs", "gym_anm/simulator/components/bus.py:Bus._check_input_specs"]}
{"id": "C14", "title": "Devices and buses are processed in increasing ID order, no element lost", "statement": "After construction the simulator's buses and devices are listed in strictly increasing ID order and are exactly the IDs of the network file, branches keep the file order, and N_bus, N_device, N_load, N_non_slack_gen, N_des count them (N_load + N_non_slack_gen + N_des + 1 = N_device).", "quantifier": "all accepted networks in any row order", "why_tests_cant": "all permutations of rows", "anchors": ["gym_anm/simulator/simulator.py:Simulator._load_case,Simulator.__init__"]}
{"id": "C15", "title": "Kirchhoff's current law holds for the nodal admittance matrix", "statement": "For every voltage vector, the nodal current (Y_bus V)_k equals the sum of the pi-model currents entering the branches attached to bus k.", "quantifier": "all accepted networks, all voltage vectors", "why_tests_cant": "all topologies and voltages", "anchors": ["gym_anm/simulator/simulator.py:Simulator._build_admittance_matrix", "gym_anm/simulator/components/branch.py:TransmissionLine.compute_currents"]}
{"id": "C16", "title": "Branches are passive", "statement": "For every accepted branch and all end voltages, P_from + P_to = r/(r^2+x^2) * |V_f/tap - V_t|^2 >= 0: a line never creates active power.", "quantifier": "all accepted branches, all complex end voltages", "why_tests_cant": "continuum", "anchors": ["gym_anm/simulator/components/branch.py:TransmissionLine.compute_currents,TransmissionLine.compute_power_flows"]}
{"id": "C17", "title": "pfe_converged=True means the AC power-flow equations hold to 1e-5", "statement": "If transition() (or reset()) reports convergence on a network whose bus IDs are 0..N-1 with slack 0, then all bus voltages are finite, the slack voltage is 1+0j, and at each non-slack bus the power flowing into its branches (pi-model) equals the sum of the injections of its devices to within 1e-5 p.u. in both P and Q - whatever the sparse linear solver returned.", "quantifier": "all networks with 0..N-1 bus IDs, all inputs, all behaviours of the sparse solver (incl. NaN, wrong solutions)", "why_tests_cant": "all solver behaviours, all networks", "anchors": ["gym_anm/simulator/solve_load_flow.py:solve_pfe_newton_raphson,_newton_raphson_sparse,_f"]}
{"id": "C18", "title": "Newton-Raphson always terminates within 100 iterations and never reports NaN as converged", "statement": "The load-flow solver performs at most 100 linear solves; it reports stable iff the final residual max-norm is a number <= xtol.", "quantifier": "all inputs and all linear-solver behaviours", "why_tests_cant": "all inputs", "anchors": ["gym_anm/simulator/solve_load_flow.py:_newton_raphson_sparse"]}
{"id": "C19", "title": "The Newton-Raphson Jacobian is the exact derivative of the mismatch function", "statement": "Every entry of _dfdx(guess, Y) is the partial derivative of the corresponding entry of _f(guess, p, q, Y) with respect to the corresponding unknown, whenever the guessed voltage magnitudes are positive.", "quantifier": "all network sizes, all admittance matrices, all guesses with positive magnitudes", "why_tests_cant": "derivative statement at every point", "anchors": ["gym_anm/simulator/solve_load_flow.py:_dfdx,_f,_construct_v_from_guess"]}
{"id": "C20", "title": "Active power balance of a converged state", "statement": "In a converged state, when only the slack generator is attached to the slack bus, the sum of all device active injections equals the sum of the branch losses up to (N-1)*1e-5 p.u.; in particular it is >= -(N-1)*1e-5.", "quantifier": "all accepted networks with 0..N-1 bus IDs, all inputs", "why_tests_cant": "global invariant over all topologies", "anchors": ["gym_anm/simulator/simulator.py:Simulator.transition", "gym_anm/simulator/solve_load_flow.py"]}
{"id": "C21", "title": "Nodal balance at the slack bus", "statement": "After a transition, the sum of the injections of the devices attached to the slack bus equals the power the slack bus injects in the network.", "quantifier": "all accepted networks", "why_tests_cant": "networks with extra devices on the slack bus are untested", "anchors": ["gym_anm/simulator/solve_load_flow.py:solve_pfe_newton_raphson"]}
{"id": "C22", "title": "The slack bus voltage is the configured v_slack", "statement": "The magnitude of the slack bus voltage equals the value advertised by get_state_space() (v_slack = VMAX of the slack bus).", "quantifier": "all accepted networks", "why_tests_cant": "all VMAX values; tests use 1.0", "anchors": ["gym_anm/simulator/solve_load_flow.py:_construct_v_from_guess", "gym_anm/simulator/simulator.py:Simulator.get_state_space", "gym_anm/simulator/components/bus.py:Bus.v_slack"]}
{"id": "C23", "title": "Results do not depend on how buses are numbered", "statement": "Every accepted network is simulated according to its topology, whatever (distinct) bus IDs are used and whichever ID the slack bus has.", "quantifier": "all accepted networks", "why_tests_cant": "all numberings", "anchors": ["gym_anm/simulator/solve_load_flow.py:solve_pfe_newton_raphson", "gym_anm/simulator/simulator.py:Simulator._build_admittance_matrix"]}
{"id": "C24", "title": "Reported branch apparent power", "statement": "|branch_s| is the larger of the apparent powers at the two ends and its sign is the direction of P_from (+ if P_ij >= 0, - otherwise).", "quantifier": "all branches, all voltages", "why_tests_cant": "boundary P_from = 0", "anchors": ["gym_anm/simulator/components/branch.py:TransmissionLine.compute_power_flows"]}
{"id": "C25", "title": "Reported branch current magnitude", "statement": "The absolute value of the state variable branch_i_magn equals the modulus of the branch current.", "quantifier": "all branches, all voltages", "why_tests_cant": "sign of complex numbers is numpy-version dependent", "anchors": ["gym_anm/simulator/simulator.py:Simulator._gather_state"]}
{"id": "C26", "title": "Energy-loss decomposition", "statement": "In a converged state e_loss/dt equals (branch losses) - (storage injections) + (total curtailment of renewables) up to (N-1)*1e-5, when only the slack generator is on the slack bus.", "quantifier": "all accepted networks, all inputs", "why_tests_cant": "needs the global power balance", "anchors": ["gym_anm/simulator/simulator.py:Simulator._compute_reward"]}
{"id": "C27", "title": "Penalty is non-negative and zero exactly when constraints hold", "statement": "penalty >= 0, and for lamb > 0 it is 0 iff every bus voltage magnitude is within [VMIN, VMAX] and the apparent power at both ends of every branch is <= RATE.", "quantifier": "all networks, all electrical states", "why_tests_cant": "iff over all states", "anchors": ["gym_anm/simulator/simulator.py:Simulator._compute_reward", "gym_anm/simulator/components/branch.py:TransmissionLine.compute_power_flows"]}
{"id": "C28", "title": "Per-step reward is bounded by the clipping parameters", "statement": "In every non-terminal step the reward equals -(e_loss + penalty) with |e_loss| <= costs_clipping[0] and 0 <= penalty <= costs_clipping[1]; hence -(c1+c2) <= r <= c1.", "quantifier": "all environments, all histories", "why_tests_cant": "all histories", "anchors": ["gym_anm/envs/anm_env.py:ANMEnv.step"]}
{"id": "C29", "title": "Terminal states are absorbing", "statement": "Once step() has returned terminated=True, every later step() with a valid action returns a zero observation of the right size, reward 0, terminated=True, truncated=False, and changes neither the simulator nor the timestep, until reset().", "quantifier": "all environments, all action sequences", "why_tests_cant": "unbounded sequences", "anchors": ["gym_anm/envs/anm_env.py:ANMEnv.step"]}
{"id": "C30", "title": "Collapsing is never better than staying alive", "statement": "The reward of a collapsing step is not larger than the discounted return of any continuation without collapse, for every gamma in [0, 1].", "quantifier": "all reward sequences allowed by clipping, all gamma in [0,1]", "why_tests_cant": "infinite-horizon statement", "anchors": ["gym_anm/envs/anm_env.py:ANMEnv.step"]}
{"id": "C31", "title": "The units of one quantity describe the same physical value", "statement": "In the simulator state, MW/MVAr/MVA/MWh values equal p.u. values times baseMVA, kV = p.u. * BASE_KV, degrees = rad*180/pi; and the bounds returned by get_state_space() for different units of one quantity are related by the same factor.", "quantifier": "all quantities, all elements, all states", "why_tests_cant": "all quantities x units", "anchors": ["gym_anm/simulator/simulator.py:Simulator._gather_state,Simulator.get_state_space"]}
{"id": "C32", "title": "Bus injections respect the advertised bus bounds", "statement": "After a transition, the P of every non-slack bus is within the bounds given for bus_p by get_state_space() (sum of the device bounds).", "quantifier": "all accepted networks, all inputs", "why_tests_cant": "sums over any number of devices, infinite bounds", "anchors": ["gym_anm/simulator/simulator.py:Simulator._compute_bus_bounds,Simulator._get_bus_total_injections"]}
{"id": "C33", "title": "Simulator.reset erases history", "statement": "Whatever calls were made before (including ones that raised midway), reset(s0) on two simulators built from the same network gives the same outcome and the same simulator state.", "quantifier": "all pairs of histories, including crash points inside transition", "why_tests_cant": "all histories and crash points", "anchors": ["gym_anm/simulator/simulator.py:Simulator.reset,Simulator.transition"]}
{"id": "C34", "title": "The state is Markov: a transition depends on the past only through the SoC", "statement": "Two simulators built from the same network with the same SoC in every storage unit give identical results for identical transition inputs, whatever their histories.", "quantifier": "all pairs of histories", "why_tests_cant": "all histories", "anchors": ["gym_anm/simulator/simulator.py:Simulator.transition"]}
{"id": "C35", "title": "Save/restore: resetting to a reached state reproduces it", "statement": "Let s be the state vector read after a successful transition; Simulator.reset(s) yields the same device injections, SoC, potentials, voltages, flows and convergence flag.", "quantifier": "all accepted networks of ordinary numbers whose corner limits are given, every state reached by a transition from SoCs within their limits, every history of the simulator that is reset", "why_tests_cant": "all reachable states", "anchors": ["gym_anm/simulator/simulator.py:Simulator.reset", "gym_anm/envs/anm_env.py:ANMEnv._construct_state"]}
{"id": "C36", "title": "Action vector layout matches the action space", "statement": "Entry i of an action accepted by env.action_space is applied as the set-point of exactly the device and quantity whose bounds are entry i of action_space: [P_gen..., Q_gen..., P_des..., Q_des...], each block in increasing device ID.", "quantifier": "all networks, all actions", "why_tests_cant": "any number and order of devices", "anchors": ["gym_anm/envs/anm_env.py:ANMEnv._build_action_space,ANMEnv.step", "gym_anm/simulator/simulator.py:Simulator.get_action_space"]}
{"id": "C37", "title": "Stochastic-variable vector layout and size check", "statement": "step() raises EnvNextVarsError iff next_vars returns a vector whose size is not N_load + N_non_slack_gen + K; otherwise entry i goes to the i-th load (by ID), then the i-th non-slack generator, then the auxiliary variables.", "quantifier": "all networks, all K, all vectors", "why_tests_cant": "all sizes", "anchors": ["gym_anm/envs/anm_env.py:ANMEnv.step"]}
{"id": "C38", "title": "State vector layout", "statement": "After reset() and after every non-terminal step() the state vector is [P of all devices by ID, Q, SoC of storage units, P_max of non-slack generators, K aux variables] in MW/MVAr/MWh, of length 2*N_device+N_des+N_non_slack_gen+K; after a terminal step it is the zero vector of that length.", "quantifier": "all networks, all histories", "why_tests_cant": "all sizes and histories", "anchors": ["gym_anm/envs/anm_env.py:ANMEnv._construct_state,ANMEnv._expand_all_ids,ANMEnv._extract_state_variables"]}
{"id": "C39", "title": "Observations always belong to the observation space", "statement": "With a built-in observation (\"state\" or list), the vector returned by reset() and by each non-terminal step() is inside observation_space (so the internal assertion never fires) whenever no observed quantity is NaN and lower bounds do not exceed upper bounds.", "quantifier": "all environments, all histories", "why_tests_cant": "all histories, float semantics", "anchors": ["gym_anm/envs/anm_env.py:ANMEnv.observation,ANMEnv.observation_bounds,ANMEnv.reset,ANMEnv.step"]}
{"id": "C40", "title": "Every accepted observation specification works", "statement": "If the environment constructor accepts an observation list, then the observation space can be built and every observed entry is the requested quantity at the requested element.", "quantifier": "all observation lists", "why_tests_cant": "combinatorial; default units and odd indices", "anchors": ["gym_anm/envs/utils.py:_check_observation_vars", "gym_anm/envs/anm_env.py:ANMEnv._build_observation_space,ANMEnv.observation_bounds", "gym_anm/simulator/components/constants.py:STATE_VARIABLES"]}
{"id": "C41", "title": "reset() succeeds as soon as one of at most 100 sampled initial states is non-terminal, else raises EnvInitializationError", "statement": "env.reset() samples at most 100 initial states, returns with the first one for which the power flow converges, and raises EnvInitializationError if none of the 100 converges.", "quantifier": "all init_state samplers, all solver behaviours", "why_tests_cant": "needs 100 consecutive failures", "anchors": ["gym_anm/envs/anm_env.py:ANMEnv.reset"]}
{"id": "C42", "title": "Step bookkeeping", "statement": "truncated is always False; the timestep equals the number of non-absorbed steps since reset; reset sets terminated=False, timestep=0, e_loss=0, penalty=0; step before reset raises.", "quantifier": "all histories", "why_tests_cant": "all histories", "anchors": ["gym_anm/envs/anm_env.py:ANMEnv.step,ANMEnv.reset"]}
{"id": "C43", "title": "Auxiliary variables are carried verbatim", "statement": "After a non-terminal step the last K entries of the state vector are exactly the last K entries returned by next_vars; after reset they are the last K entries of init_state().", "quantifier": "all K, all histories", "why_tests_cant": "all K", "anchors": ["gym_anm/envs/anm_env.py:ANMEnv.step,ANMEnv.reset,ANMEnv._extract_state_variables"]}
{"id": "C44", "title": "ANM6Easy time-of-day index", "statement": "In ANM6Easy, from any reset, the auxiliary variable after n non-terminal steps is (t0 + n) mod 96, always a valid index of the 24-hour series, and the demand/generation vector is periodic with period 96.", "quantifier": "all n, all t0", "why_tests_cant": "unbounded n", "anchors": ["gym_anm/envs/anm6_env/anm6_easy.py:ANM6Easy.next_vars,ANM6Easy.init_state"]}
{"id": "C45", "title": "Displayed date is in step with the time-of-day index", "statement": "After reset (date at midnight) and n steps the date is date_0 + (t0+n)*15 minutes; while not terminated its time of day equals aux*15 minutes; year_count is the number of whole 365-day periods elapsed since reset.", "quantifier": "all n, all t0, all start dates at midnight", "why_tests_cant": "unbounded n", "anchors": ["gym_anm/envs/anm6_env/anm6.py:ANM6.step,ANM6.reset,ANM6.reset_date", "gym_anm/envs/anm6_env/anm6_easy.py:ANM6Easy.reset"]}
{"id": "C46", "title": "ANM6Easy time series follow the documented scenarios", "statement": "The 96-step demand and generation series are admissible for the devices (within their PMIN/PMAX) and change linearly between the constant periods.", "quantifier": "all 96 time indices and 5 series", "why_tests_cant": "documented piecewise-linear shape", "anchors": ["gym_anm/envs/anm6_env/anm6_easy.py:_get_load_time_series,_get_gen_time_series", "docs/source/topics/anm6_easy.rst"]}
{"id": "C47", "title": "ANM6Easy initial SoC spans the storage capacity", "statement": "The initial SoC sampled by ANM6Easy.init_state ranges over the whole capacity [SOC_MIN, SOC_MAX] of the storage unit (0 to 100 MWh).", "quantifier": "all random draws", "why_tests_cant": "distribution support; unit mismatch", "anchors": ["gym_anm/envs/anm6_env/anm6_easy.py:ANM6Easy.init_state"]}
{"id": "C48", "title": "The MPC action is always an admissible action", "statement": "MPCAgent.act returns a vector of the action space's size inside its bounds (unless NaN), with [P_gen, 0, P_des, 0] layout, so env.step accepts it.", "quantifier": "all networks, all optimiser results", "why_tests_cant": "all optimiser results, including infeasible by tolerance", "anchors": ["gym_anm/agents/mpc.py:MPCAgent.act,MPCAgent._solve"]}
{"id": "C49", "title": "The perfect forecast is perfect", "statement": "For every horizon N >= 1 and every time-of-day t, column k of the forecast of MPCAgentPerfect equals (in p.u.) the demand and generation that ANM6Easy.next_vars yields k+1 steps later, also when the window spans several days.", "quantifier": "all horizons, all start times", "why_tests_cant": "unbounded horizon", "anchors": ["gym_anm/agents/mpc_perfect.py:MPCAgentPerfect.forecast", "gym_anm/envs/anm6_env/anm6_easy.py:ANM6Easy.next_vars"]}
{"id": "C50", "title": "The constant forecast repeats the current state", "statement": "Column k of MPCAgentConstant's forecast equals the current load injections and generator potentials (p.u.), for every k < N.", "quantifier": "all horizons, all networks", "why_tests_cant": "all sizes", "anchors": ["gym_anm/agents/mpc_constant.py:MPCAgentConstant.forecast"]}
{"id": "C51", "title": "MPC plans keep the planned SoC within bounds over the whole horizon and never over-estimate stored energy", "statement": "In every feasible N-stage plan, the planned SoC is within [SOC_MIN,SOC_MAX] at each stage, and it never exceeds the SoC that the simulator's own update law would give for the planned net injections (equality when no unit charges and discharges at once).", "quantifier": "all horizons, all feasible plans", "why_tests_cant": "all horizons", "anchors": ["gym_anm/agents/mpc.py:MPCAgent._single_step_optimization_problem,MPCAgent._create_optimization_problem", "gym_anm/simulator/components/devices.py:StorageUnit.update_soc"]}
{"id": "C52", "title": "MPC plans are power balanced", "statement": "In every feasible plan (lossless DC model) the device injections of each stage sum to zero.", "quantifier": "all networks, all feasible plans", "why_tests_cant": "all topologies, phase shifters", "anchors": ["gym_anm/agents/mpc.py:MPCAgent._single_step_optimization_problem"]}
{"id": "C53", "title": "The MPC angle reference is the slack bus", "statement": "The bus whose angle the MPC problem fixes to 0 is the slack bus.", "quantifier": "all accepted networks", "why_tests_cant": "device/bus numbering", "anchors": ["gym_anm/agents/mpc.py:MPCAgent._single_step_optimization_problem"]}
{"id": "C54", "title": "Frame skipping renders every (skip_frames+1)-th call", "statement": "With a constant skip_frames=k, the rendering is updated on exactly the calls whose number is a multiple of k+1, for any number of calls and any interleaving of step() and reset().", "quantifier": "all k, all call sequences", "why_tests_cant": "unbounded sequences", "anchors": ["gym_anm/envs/anm6_env/anm6.py:ANM6.render,ANM6.reset"]}
{"id": "C55", "title": "At most one pair of rendering servers is alive, and close() stops it", "statement": "For any sequence of reset/step/render/close calls there is at most one live (HTTP, WebSocket) server pair, and none after close().", "quantifier": "all call sequences, including calls that raise", "why_tests_cant": "histories and crash points", "anchors": ["gym_anm/envs/anm6_env/anm6.py:ANM6.render,ANM6.close,ANM6.reset"]}
{"id": "C56", "title": "Every connected browser is initialised before it is updated", "statement": "A client of the WebSocket server that receives an update has received the init message before.", "quantifier": "all interleavings of client connections and messages", "why_tests_cant": "schedules", "anchors": ["gym_anm/envs/anm6_env/rendering/py/servers.py:WsServer.new_client,WsServer.msg_received", "gym_anm/envs/anm6_env/rendering/py/rendering.py:start"]}
{"id": "C57", "title": "random_date stays within the requested year", "statement": "random_date(rng, year) is 00:00 of a day of that year, for every draw, leap or common year.", "quantifier": "all draws, all years", "why_tests_cant": "all years", "anchors": ["gym_anm/envs/anm6_env/utils.py:random_date"]}
{"id": "C58", "title": "Reported angles are within their advertised bounds", "statement": "Voltage and current angles reported in the state lie within [-pi, pi] rad and [-180, 180] degrees, the advertised bounds.", "quantifier": "all states", "why_tests_cant": "continuum", "anchors": ["gym_anm/simulator/simulator.py:Simulator._gather_state,Simulator.get_state_space"]}
{"id": "C59", "title": "Environment-argument validation", "statement": "ANMEnv construction (with a valid network) raises ArgsError iff K < 0, dt <= 0, lamb < 0, gamma outside [0,1], observation of a wrong kind, or aux_bounds of a length other than K; observation lists are rejected iff some tuple is malformed, names an unknown quantity, element or unit.", "quantifier": "all argument tuples", "why_tests_cant": "all argument combinations", "anchors": ["gym_anm/envs/utils.py:check_env_args,_check_observation_vars"]}
{"id": "C60", "title": "Determinism given the seed", "statement": "Two environments of the same class and arguments, reset with the same seed and given the same actions, produce the same observations, rewards and flags, whatever happened to them before the reset.", "quantifier": "all action sequences, all pre-reset histories", "why_tests_cant": "all histories", "anchors": ["gym_anm/envs/anm_env.py:ANMEnv.reset,ANMEnv.step"]}
{"id": "C61", "title": "Callable observations work", "statement": "An environment whose observation argument is a function of the state vector, as documented, can be reset: reset returns the value of the function at the initial state when the power flow converges.", "quantifier": "all functions returning numpy arrays, all networks, all histories", "why_tests_cant": "all functions and histories", "anchors": ["gym_anm/envs/anm_env.py:ANMEnv.reset,ANMEnv._build_observation_space", "gym_anm/envs/utils.py:check_env_args"]}
{"id": "C62", "title": "A live step with admissible inputs returns", "statement": "In a live episode, a step with an action of the action space and with next_vars returning a vector of the documented size never raises, unless the simulator itself raises or an observed quantity is NaN: it returns the observation of the new state if the power flow converges and the terminal observation (zeros) otherwise.", "quantifier": "all networks, observation lists, histories, actions", "why_tests_cant": "all histories", "anchors": ["gym_anm/envs/anm_env.py:ANMEnv.step"]}
{"id": "C63", "title": "ANM6Easy steps apply the documented demands and generation limits", "statement": "In ANM6Easy, after a returning reset and any number of non-terminal steps, the reset itself and each further non-terminal step leave in the simulator, in MW, the demand of each load given by the documented day at the current quarter of an hour, its reactive power equal to 0.2 times it, the tabulated potential of the wind farm, and the tabulated potential of the PV plant cut at its installed 30 MW; the action has no influence on them.", "quantifier": "all histories of calls, actions, generators, solver behaviours and step counts", "why_tests_cant": "the value depends on the whole path from the time index through the table, the argument layout, the per-unit conversion, the clipping and back; all 96 indices and all histories", "anchors": ["gym_anm/envs/anm6_env/anm6_easy.py:ANM6Easy.next_vars", "gym_anm/envs/anm_env.py:ANMEnv.step", "gym_anm/simulator/simulator.py:Simulator.transition"]}
{"id": "C64", "title": "MPC plans satisfy the DC power flow", "statement": "In every feasible plan of the MPC agent, at every stage and every bus, the sum of the planned injections of the devices at the bus equals the DC power flowing out of the bus: over the branches at the bus, the series susceptance x/(tap*(r^2+x^2)) times the difference of the planned voltage angles at the two ends of the branch.", "quantifier": "all networks (any bus numbering that the constructor accepts), forecasts, histories, feasible plans", "why_tests_cant": "all feasible plans", "anchors": ["gym_anm/agents/mpc.py:MPCAgent._single_step_optimization_problem", "gym_anm/agents/mpc.py:MPCAgent._power_injection_at_bus", "gym_anm/simulator/simulator.py:Simulator._build_admittance_matrix"]}
{"id": "C65", "title": "MPC actions are the plan, unclipped", "statement": "Every feasible plan of the MPC agent gives each load its forecast, each generator an injection between its declared limits and at most its forecast potential, and each storage unit an injection between its declared limits. So the action that the agent returns holds the planned first-stage active power (in MW) of every generator and storage unit, never altered by the final clipping to the action space, and zero reactive power for every device whose declared range contains zero.", "quantifier": "all networks, environments, histories, forecasts, and optimisers that return a feasible point", "why_tests_cant": "all feasible plans", "anchors": ["gym_anm/agents/mpc.py:MPCAgent.act", "gym_anm/agents/mpc.py:MPCAgent._single_step_optimization_problem"]}
{"id": "C66", "title": "the environment executes MPC plans", "statement": "When the action of the MPC agent is applied to a live environment, every generator whose actual potential reaches its planned injection injects exactly the planned active power and no reactive power, and every storage unit that is not planned to charge and discharge at once injects exactly the planned active power, no reactive power, and ends the step at exactly the planned state of charge (for devices that may run at zero reactive power at their active limits).", "quantifier": "all networks, histories, forecasts (right or wrong), optimisers that return a feasible point, exact QP solvers", "why_tests_cant": "all histories and plans", "anchors": ["gym_anm/agents/mpc.py:MPCAgent.act", "gym_anm/envs/anm_env.py:ANMEnv.step", "gym_anm/simulator/simulator.py:Simulator.transition", "gym_anm/simulator/components/devices.py:StorageUnit.map_pq", "gym_anm/simulator/components/devices.py:StorageUnit.update_soc"]}
{"id": "C68", "title": "transitions and resets raise only for documented reasons", "statement": "On a network with bus IDs 0..N-1 (in any order), at least two buses and a VMIN for the slack bus: after any call that returned, a transition raises only if an input of a device is missing, if the external optimiser raises, or if a storage unit divides by dt * efficiency = 0; a reset raises only for the last two reasons, provided its vector is long enough. In particular nothing is raised by the power flow (converged or not), by the update of the network or by the reward. If moreover the device rows give the limits of their corner lines and a positive efficiency, and the solvers solve what is solvable, then no reset with a finite vector and no sequence of transitions, of any length and with any finite set-points, ever raises, and the states of charge stay in range.", "quantifier": "all such networks, histories, inputs, set-points, arithmetics (first part, binary64 included) and solvers", "why_tests_cant": "all histories and inputs; the absence of exceptions cannot be sampled", "anchors": ["gym_anm/simulator/simulator.py:Simulator.transition", "gym_anm/simulator/simulator.py:Simulator.reset", "gym_anm/simulator/solve_load_flow.py:solve_pfe_newton_raphson", "gym_anm/simulator/solve_load_flow.py:_newton_raphson_sparse", "gym_anm/simulator/components/devices.py:StorageUnit.map_pq", "gym_anm/simulator/components/devices.py:Generator.map_pq", "gym_anm/simulator/simulator.py:Simulator._compute_reward"]}
{"id": "C67", "title": "the MPC agents solve the documented optimal power flow", "statement": "On a network with bus IDs 0..N-1, without phase shifters and whose slack device has among the devices the rank of its bus among the buses: the plans that satisfy the constraints of an MPC agent are exactly the plans of the documented multi-stage DC optimal power flow (DC power flow at every bus, angles between -pi and pi, zero angle at the slack bus, loads at their forecast, non-slack generators within their limits and below the forecast of their potential, storage units within their power limits, with charge and discharge parts, and with a state of charge that stays in range), and the objective of the agent is the documented cost: the discounted sum over the stages of the power of the non-renewable generators plus lambda times the excess of the DC branch flows over the given fraction of the ratings. With an exact convex optimiser, the returned action is the first stage, in MW, of a plan of least documented cost.", "quantifier": "all such networks, simulator histories before and after the agent is built, finite forecasts, horizons, discounts, margins and plans", "why_tests_cant": "all networks, forecasts and plans; optimality compares with every feasible plan", "anchors": ["gym_anm/agents/mpc.py:MPCAgent._create_optimization_problem", "gym_anm/agents/mpc.py:MPCAgent._single_step_optimization_problem", "gym_anm/agents/mpc.py:MPCAgent._update_parameters", "gym_anm/agents/mpc.py:MPCAgent.act"]}
{"id": "C69", "title": "what a converged simulator reports is finite", "statement": "After a reset with a vector of ordinary numbers that leaves the states of charge within their limits, and any number of transitions with numeric inputs that returned, if the last power flow converged then every value of the reported state - every quantity, in every unit, for every bus, device and branch - is an ordinary number: no NaN and no infinity. The reward, the energy loss and the penalty returned by a converged transition are ordinary numbers too.", "quantifier": "all accepted networks whose branch rows and corner-line limits are numbers and whose slack bus is bus 0, all histories, set-points and solvers that return nearest points", "why_tests_cant": "a NaN or an infinity may need a particular history, limit pattern (infinite defaults) or set-point", "anchors": ["gym_anm/simulator/simulator.py:Simulator.transition", "gym_anm/simulator/simulator.py:Simulator.reset", "gym_anm/simulator/simulator.py:Simulator._gather_state", "gym_anm/simulator/simulator.py:Simulator._compute_reward", "gym_anm/simulator/components/devices.py:Generator.map_pq", "gym_anm/simulator/components/devices.py:StorageUnit.map_pq", "gym_anm/simulator/components/devices.py:Load.map_pq"]}
{"id": "C70", "title": "episodes never raise", "statement": "On a network that meets the documented conditions, with an init_state that returns a full-size vector of numbers whose states of charge are within limits, a next_vars that returns a number for every load, generator and auxiliary variable, and a discount factor other than 1, no sequence of reset (with or without a seed) and step (with any finite action of the action space) that starts with a reset ever raises, across any number of episodes, collapses and absorbed steps - except that a reset raises when the power flow diverges for 99 consecutive samples. The environment remains usable even after such a failed reset.", "quantifier": "all such networks, observation lists, tasks (including stateful random ones), seeds, solvers that solve what is solvable, and call sequences of any length", "why_tests_cant": "an exception deep in an episode may need a particular history of states of charge, samples, collapses and resets", "anchors": ["gym_anm/envs/anm_env.py:ANMEnv.step", "gym_anm/envs/anm_env.py:ANMEnv.reset", "gym_anm/simulator/simulator.py:Simulator.transition", "gym_anm/simulator/simulator.py:Simulator.reset", "gym_anm/simulator/solve_load_flow.py:solve_load_flow"]}
{"id": "C71", "title": "a reset applies the state vector it is given", "statement": "Simulator.reset(init_state), when it returns, applies the vector entry by entry: each load draws its P entry clamped to its limits with Q = P times its constant ratio; each generator's potential is its P_max entry clamped to its limits; each generator and storage unit injects the point of its allowed region nearest to its (P, Q) entries, and exactly that point if it is allowed; each state of charge is its entry (storage regions are evaluated for an empty battery when the P entry is <= 0 and a full one otherwise, not for the given state of charge).", "quantifier": "all accepted networks, prior histories, state vectors, solvers and devices", "why_tests_cant": "the mapping from positions of a flat vector to devices has to be right for every network, device-ID layout and value", "anchors": ["gym_anm/simulator/simulator.py:Simulator.reset", "gym_anm/simulator/simulator.py:Simulator.transition", "gym_anm/simulator/components/devices.py:Load.map_pq", "gym_anm/simulator/components/devices.py:Generator.map_pq", "gym_anm/simulator/components/devices.py:StorageUnit.map_pq"]}
{"id": "C72", "title": "the calendar of ANM6 environments", "statement": "In every ANM6 environment (any subclass): after a reset that returned and n steps that returned, whatever else happened in between (steps that raised, renderings, closings, the end of the episode), env.date is the start date plus n timesteps, env.date_init is the start date and env.year_count is the number of whole 365-day periods elapsed; the start date is options['date_init'] if given and otherwise midnight of a day drawn by np_random.integers(1, 365) after January 1st, 2020. reset_date(d) restarts the calendar at d, and resets the year count as documented.", "quantifier": "all subclasses, tasks, timesteps, histories and dates", "why_tests_cant": "the date is an accumulated quantity: it has to be right after any number of steps and any interleaving of calls", "anchors": ["gym_anm/envs/anm6_env/anm6.py:ANM6.step", "gym_anm/envs/anm6_env/anm6.py:ANM6.reset", "gym_anm/envs/anm6_env/anm6.py:ANM6.reset_date", "gym_anm/envs/utils.py:random_date"]}
{"id": "C73", "title": "dates and rendering do not influence the physics", "statement": "Two histories of an ANM6 environment with the same resets and steps give the same observations, rewards and flags, and leave the same environment state, whatever the dates passed to reset and reset_date and wherever the environment is rendered or closed. Leaving out options['date_init'] costs exactly one draw from the generator, after the initial state was found, and changes nothing else; in ANM6Easy the answers are therefore the same with or without a start date until the next reset without a seed (from which on they may differ).", "quantifier": "all subclasses, tasks, histories, dates, renderings and solver behaviours", "why_tests_cant": "independence of a parameter is a statement about all pairs of histories", "anchors": ["gym_anm/envs/anm6_env/anm6.py:ANM6.step", "gym_anm/envs/anm6_env/anm6.py:ANM6.reset", "gym_anm/envs/anm6_env/anm6.py:ANM6.render", "gym_anm/envs/anm6_env/anm6_easy.py:ANM6Easy.reset"]}
{"id": "C75", "title": "exactly the valid network files are accepted", "statement": "For a network file of ordinary numbers with non-negative bus IDs, building a simulator from it succeeds if and only if the file obeys the documented rules: the rules on the file as a whole (columns, unique IDs, one slack bus and device, branches and devices at existing buses, types) and the rules on each bus, branch and device row. With negative bus IDs the equivalence fails both ways: a file that obeys every rule can be refused, or accepted with an admittance matrix that does not have one row per bus.", "quantifier": "all network files of finite numbers", "why_tests_cant": "an equivalence over all network files", "anchors": ["gym_anm/simulator/simulator.py:Simulator.__init__", "gym_anm/simulator/simulator.py:Simulator._load_case", "gym_anm/simulator/simulator.py:Simulator._build_admittance_matrix", "gym_anm/simulator/check_network.py:check_network_specs", "gym_anm/simulator/components/bus.py:Bus", "gym_anm/simulator/components/branch.py:TransmissionLine", "gym_anm/simulator/components/devices.py:Device"]}
{"id": "C74", "title": "ANM6Easy can be built, its calls return, its rewards are bounded", "statement": "Building an ANM6Easy environment succeeds. After any history whatsoever a reset returns, unless the power flow diverges for 99 samples in a row (AttributeError); once a reset has returned, every later step with a finite action of the action space returns, and every later reset returns or gives up as above, wherever the environment is rendered or closed. Rewards: between -101 and 1 as long as the episode goes on, exactly -20000 for the step that ends it, exactly 0 for any step after the end.", "quantifier": "all random generators that respect their ranges, seeds, start dates, histories, actions, and (for the rewards) all solver behaviours; solvers that solve what they are given for the returns", "why_tests_cant": "every history and every random draw; the bounds must hold for all reachable states", "anchors": ["gym_anm/envs/anm6_env/anm6_easy.py:ANM6Easy.__init__", "gym_anm/envs/anm6_env/anm6_easy.py:ANM6Easy.init_state", "gym_anm/envs/anm6_env/anm6_easy.py:ANM6Easy.next_vars", "gym_anm/envs/anm6_env/anm6_easy.py:ANM6Easy.reset", "gym_anm/envs/anm6_env/anm6.py:ANM6.step", "gym_anm/envs/anm_env.py:ANMEnv.step", "gym_anm/envs/anm_env.py:ANMEnv.reset"]}
{"id": "C76", "title": "the order of the rows of a network file does not matter", "statement": "Listing the same buses, devices and branches of a network file in another order changes nothing a user can see. In any arithmetic, moving bus and device rows gives the very same simulator and environment. In exact arithmetic with non-negative bus IDs, moving any rows, branches included, gives the same admittance matrix, the same bounds, and after any history of calls the same values of every quantity, the same rewards, energy losses, penalties, flags and exceptions; an environment whose observation does not ask for 'all' branches has the same spaces, observations and rewards. In binary64 moving branch rows can change the last digits.", "quantifier": "all network files, all permutations of their rows, all observation arguments, all histories of calls, all power-flow solutions and samples", "why_tests_cant": "all permutations of all files, followed by histories of any length", "anchors": ["gym_anm/simulator/simulator.py:Simulator.__init__", "gym_anm/simulator/simulator.py:Simulator._load_case", "gym_anm/simulator/simulator.py:Simulator._build_admittance_matrix", "gym_anm/simulator/simulator.py:Simulator.transition", "gym_anm/envs/anm_env.py:ANMEnv.__init__", "gym_anm/envs/anm_env.py:ANMEnv.reset", "gym_anm/envs/anm_env.py:ANMEnv.step"]}
{"id": "C77", "title": "the power exchanged with the main grid is never NaN and is the same at bus and device", "statement": "After any history of resets and transitions, whether the power flows converged or not and whatever the solvers returned, the slack device and the slack bus report the same active and reactive power in every unit, and that power is never NaN: it is an ordinary number or an infinity.", "quantifier": "all network files, all histories of calls, all power-flow and projection solvers", "why_tests_cant": "a solver that diverges can return anything; the guard must hold for every returned vector and history", "anchors": ["gym_anm/simulator/solve_load_flow.py:solve_load_flow", "gym_anm/simulator/simulator.py:Simulator.transition", "gym_anm/simulator/simulator.py:Simulator._gather_state"]}
{"id": "C78", "title": "the message that opens a rendering describes the network of the environment", "statement": "The first message a rendering sends to the browser lists, in the order of the elements of the network, the type of every device, the largest active and reactive powers in absolute value that the bounds of the devices allow (MW, MVAr), the rate of every branch (MVA; infinite when the file gives none), the voltage limits of every bus, the largest state of charge of every storage unit (MWh) and the two limits used to scale the cost bars.", "quantifier": "all network files with voltage limits on the slack bus, all environment arguments, all arithmetics", "why_tests_cant": "the message is built by positional joins over several dictionaries; only a statement about every file and every order of rows fixes which number belongs to which element", "anchors": ["gym_anm/simulator/simulator.py:Simulator.get_rendering_specs", "gym_anm/envs/anm_env.py:ANMEnv.__init__", "gym_anm/envs/anm6_env/anm6.py:ANM6._init_render"]}
{"id": "C79", "title": "every number sent to the browser is JSON", "statement": "Every number in the messages sent to the browser, at the start of a rendering and at each update, is finite, so that JSON.parse accepts the messages; in particular the browser is told when the network has collapsed.", "quantifier": "all network files, environment arguments, histories and solvers", "why_tests_cant": "Python's json.dumps writes Infinity and NaN without an error; only reasoning about all states excludes them", "anchors": ["gym_anm/envs/anm6_env/anm6.py:ANM6._init_render", "gym_anm/envs/anm6_env/anm6.py:ANM6._update_render", "gym_anm/envs/anm_env.py:ANMEnv.__init__"]}
{"id": "C80", "title": "a lightly loaded network never collapses", "statement": "For every connected network of lines without charging and with nominal taps there is a level of load below which no reset and no transition ever reports a collapse: if the powers of the devices at each bus other than the slack bus stay below it, the power flow converges, whatever happened before. The level is explicit in terms of the sizes of the impedance and admittance matrices. In particular the 2-bus network of examples/simple_env.py never collapses, whatever is requested of its load.", "quantifier": "all network files of that kind, all histories of resets and transitions, all requests, all exact linear solvers", "why_tests_cant": "Newton's method is iterated on a continuum of loads; a run shows convergence for one of them only", "anchors": ["gym_anm/simulator/solve_load_flow.py:solve_pfe_newton_raphson", "gym_anm/simulator/solve_load_flow.py:_newton_raphson_sparse", "gym_anm/simulator/simulator.py:Simulator.transition", "examples/simple_env.py:network"]}
{"id": "C81", "title": "the simple example environment never fails", "statement": "The environment of examples/simple_env.py can be built, its only valid action is the empty one, and every call of every history that starts with a reset is served: every reset returns, every step with the empty action returns, never ends the episode, and pays a reward between -101 and 1.", "quantifier": "all random generators, all seeds, all histories of resets and steps, all exact solvers", "why_tests_cant": "an episode has no end: a run tests the first steps of one sequence of random demands", "anchors": ["examples/simple_env.py:SimpleEnvironment", "gym_anm/envs/anm_env.py:ANMEnv.step", "gym_anm/envs/anm_env.py:ANMEnv.reset"]}
{"id": "C82", "title": "the custom ANM6 example does what it says", "statement": "In the environment of examples/custom_anm6.py, each load draws the demand and each generator has the potential that next_vars samples for it, and the agent of this fully observable environment sees the time of day.", "quantifier": "all random generators, all histories of resets and steps, all oracles", "why_tests_cant": "both defects are silent: every call returns, values are clamped to the limits of the devices and of the observation space, and the first ten steps show the right time", "anchors": ["examples/custom_anm6.py:CustomANM6Environment", "gym_anm/envs/anm_env.py:ANMEnv.step", "gym_anm/envs/anm_env.py:ANMEnv.observation"]}
{"id": "C83", "title": "the MPC agents never fail on ANM6Easy", "statement": "At every point of every episode of ANM6Easy, whether or not it has ended, the optimal power flow of both MPC agents has an optimal solution, the agent returns an action, the action is made of finite numbers of the action space, and the step that takes it returns; hence an episode driven by an MPC agent raises nothing, whatever its length.", "quantifier": "all random generators, all histories before the reset, all careful calls after it, both forecasts, all horizons of at least one step, all discount factors, all positive safety margins, all optimisers that return a least-cost feasible plan when there is one, all episode lengths", "why_tests_cant": "an infeasible or unattained optimum would show only for some demand, potential, state of charge and horizon, as a TypeError in the middle of an episode; no finite set of runs excludes it", "anchors": ["gym_anm/agents/mpc.py:MPCAgent.act", "gym_anm/agents/mpc.py:MPCAgent._solve", "gym_anm/agents/mpc.py:MPCAgent._create_optimization_problem", "gym_anm/agents/mpc_constant.py:MPCAgentConstant.forecast", "gym_anm/agents/mpc_perfect.py:MPCAgentPerfect.forecast"]}
{"id": "C84", "title": "a network file is read cell by cell", "statement": "A network dictionary whose IDs and types are whole numbers is read as the rows it writes: the constructor returns the simulator of these rows or raises their exception, and further columns are ignored. In any accepted dictionary the branch ends, device buses and device types are whole numbers that name existing things. No row of an accepted dictionary is lost, and exactly one bus is a slack bus.", "quantifier": "all network dictionaries: any array sizes, any cells (numbers, NaN, infinities or None), absent keys, all time steps and penalty factors; for the first part all number representations exact on the IDs of the file", "why_tests_cant": "IDs and types are floats compared in one place and truncated in another; only particular combinations of cells collide", "anchors": ["gym_anm/simulator/check_network.py:check_network_specs", "gym_anm/simulator/simulator.py:Simulator.__init__", "gym_anm/simulator/simulator.py:Simulator._load_case", "gym_anm/simulator/components/bus.py:Bus.__init__", "gym_anm/simulator/components/branch.py:TransmissionLine._check_input_specs", "gym_anm/simulator/components/devices.py:Device.__init__"]}
{"id": "C85", "title": "the page shows the last frame", "statement": "After the first message and any number of updates, no message handler of the page raises, and the page shows the numbers of the last update: bars filled in proportion to the announced limits and never beyond, green or blue by the sign, arrows by the direction of the power, the unused power of a generator stacked on its output, a red cross on a branch exactly when its flow exceeds its rating and on a bus exactly when its voltage is outside its range, the calendar date and the clock time, the year count, the costs and the collapse mark. The page does not depend on the updates before the last one.", "quantifier": "all first messages and all sequences of updates of the sizes of the drawing; all dates; exact arithmetic for the shapes, any number type for the absence of exceptions and the dependence on earlier updates", "why_tests_cant": "drawing code is looked at on a few frames; boundaries, signs and what earlier frames leave behind are not", "anchors": ["gym_anm/envs/anm6_env/rendering/js/devices.js", "gym_anm/envs/anm6_env/rendering/js/graph.js", "gym_anm/envs/anm6_env/rendering/js/init.js", "gym_anm/envs/anm6_env/rendering/js/reward.js", "gym_anm/envs/anm6_env/rendering/js/dateTime.js", "gym_anm/envs/anm6_env/rendering/js/text.js", "gym_anm/envs/anm6_env/rendering/envs/anm6/svgLabels.js", "gym_anm/envs/anm6_env/rendering/py/rendering.py:update"]}
{"id": "C86", "title": "the browser shows the environment, and its red crosses agree with the penalty", "statement": "An environment on the 6-bus network gives the same first message at any moment of its life. A page that receives it and then any selection of the updates sent so far raises nowhere and shows the last one; every update pictures the environment at the moment it was sent. When the picture is that of a step that did not end the episode, some bus or branch has a red cross exactly when the displayed penalty is positive. (The same is expected of the picture of a reset.)", "quantifier": "all observation arguments, time steps, penalty factors and positive penalty limits; all histories of reset, step, render and close with all tasks and solvers; all subsequences and orders of the sent updates; exact arithmetic for the crosses, any number type for the absence of exceptions", "why_tests_cant": "the test suite opens no browser; the agreement of the picture with the penalty involves the network, the simulator, the environment, the message formats and the drawing code together", "anchors": ["gym_anm/envs/anm6_env/anm6.py:render", "gym_anm/envs/anm6_env/rendering/py/rendering.py:update", "gym_anm/envs/anm6_env/rendering/js/init.js", "gym_anm/envs/anm6_env/rendering/js/graph.js", "gym_anm/simulator/simulator.py:_compute_reward", "gym_anm/envs/anm_env.py:reset"]}
{"id": "C87", "title": "penalties and rewards in binary64", "statement": "In binary64 arithmetic, as the program runs: the penalty of a transition is at least 0 or NaN; when the reported voltages and flows are finite and no limit is NaN, it is 0 exactly when every reported voltage magnitude is between VMIN and VMAX and every reported branch flow at most the rating, so that no rounding or cancellation hides a violation (delta_t times lambda at least 1). The reward of a step that does not end the episode is NaN or between -(c1 + c2), rounded, and c1, and is a number when both costs are; the reward of a step that ends it is at most -c2; the steps of an ended episode give 0. In ANM6Easy these are NaN or [-101, 1], 0, and a number between -20000 and -19999.99999.", "quantifier": "all networks of binary64 numbers (infinities and NaN included), all histories, inputs, solvers and tasks, all clipping limits >= 0, all implementations of sin, cos, atan2 and fmod", "why_tests_cant": "tests sample a few magnitudes; underflow, overflow, cancellation, infinities and signed zeros are reached by inputs tests do not contain", "anchors": ["gym_anm/simulator/simulator.py:_compute_reward", "gym_anm/envs/anm_env.py:step", "gym_anm/envs/anm6_env/anm6_easy.py:ANM6Easy"]}
{"id": "C88", "title": "units and bounds agree in binary64", "statement": "In binary64 arithmetic, as the program runs: a reported value that is within its advertised bounds in per-unit (radians) is reported in MW, MVAr, MVA, MWh, kV (degrees) and is within the advertised bounds there, although the value and the bounds are scaled by separate operations, each of which rounds. So the state of charge in MWh is NaN or within its advertised bounds in every history, a bus current that is a number in per-unit is a number in kA, and when atan2 stays within [-pi, pi] every reported angle is NaN or within [-180, 180] degrees exactly.", "quantifier": "all networks of binary64 numbers with a finite baseMVA (finite BASE_KV for bus voltages and currents), all histories, inputs and solvers, all implementations of sin, cos, atan2 and fmod, all quantities except gen_p_max (C31)", "why_tests_cant": "tests compare a few values with a tolerance; whether a value at its limit crosses the limit by rounding depends on all the bits of the value, the limit and the base", "anchors": ["gym_anm/simulator/simulator.py:_gather_state", "gym_anm/simulator/simulator.py:get_state_space"]}
{"id": "C89", "title": "stored energy in binary64", "statement": "In binary64 arithmetic, as the program runs, over any sequence of transitions in which a storage unit reports finite powers: its reported charge stays within the advertised limits; it never falls while the unit only takes power from the grid and never rises while the unit only gives power; a unit that stays idle keeps its charge exactly, without drift; and the charge is never above that of a unit without losses that exchanges the same powers in the same arithmetic, so that rounding never creates energy.", "quantifier": "all networks of binary64 numbers, all storage units with an efficiency above 0 and finite limits, all finite positive time steps, all histories, inputs and solvers (whatever power the solver returns)", "why_tests_cant": "tests follow a few charging schedules with a tolerance; drift and gains by rounding accumulate over histories of any length and depend on all the bits", "anchors": ["gym_anm/simulator/components/devices.py:StorageUnit.update_soc", "gym_anm/simulator/simulator.py:transition"]}
{"id": "C90", "title": "the example agents run to the end", "statement": "The scripts examples/mpc_perfect.py and mpc_constant.py (an MPC agent acting in ANM6Easy for a fixed number of steps, going on after the episode has ended) and random_agent.py (random actions, rendering, reset when the episode has ended) never raise, except when a reset finds no initial state for which the power flow converges. The MPC scripts report rewards between -101 and 1 until the episode ends, if it does, then -20000, then zeros. The random agent sends one frame per step and leaves no server running.", "quantifier": "all generators of random numbers, both forecasts, all positive safety margins, all horizons, any number of iterations, all actions of the action space, all behaviours of the power-flow solver, all exact QP solvers and optimisers", "why_tests_cant": "a run of a script is one sequence of draws and one behaviour of the solvers, and collapses are rare in it; what the agent does after the end of an episode is never tested", "anchors": ["examples/mpc_perfect.py:run", "examples/mpc_constant.py:run", "examples/random_agent.py:run", "gym_anm/agents/mpc.py:act"]}
{"id": "C91", "title": "the state vector determines the future", "statement": "Two environments built with the same arguments whose state vectors are equal, whatever calls and time steps led there, answer every sequence of further actions with the same observations, rewards, terminations and exceptions, if next_vars draws no random numbers or the random generators agree. In particular two running ANM6Easy episodes with equal state vectors have the same future: the task is a Markov decision process and is deterministic after the reset.", "quantifier": "all networks, all environment arguments and user-defined tasks, all pairs of histories, all sequences of solver behaviours and actions", "why_tests_cant": "hidden attributes of the simulator (stored energy, device powers, the time counter, the cached potentials) could influence the future of one history only; tests compare a few seeded runs that share their history", "anchors": ["gym_anm/envs/anm_env.py:step", "gym_anm/envs/anm_env.py:next_vars", "gym_anm/envs/anm6_env/anm6_easy.py:next_vars", "gym_anm/simulator/simulator.py:transition", "docs/source/topics/anm6_easy.rst"]}
{"id": "C92", "title": "ANM6Easy is fully observable", "statement": "In ANM6Easy the observation returned by reset, and by every step that does not end the episode, is the state vector itself: 18 entries, equal one by one to those of env.state, with nothing clipped or reordered. The only exceptions are the real and reactive power of the slack generator, which are cut at -200 and 200 when the external grid has to provide more.", "quantifier": "all histories before the reset, all random generators, all numbers of steps with any accepted actions, refused actions, renderings and closings in between", "why_tests_cant": "the observation is clipped to the advertised bounds, so equality needs every demand, potential, stored energy and power in every reachable state to lie within its bounds, whatever the actions", "anchors": ["docs/source/topics/anm6_easy.rst", "gym_anm/envs/anm_env.py:observation", "gym_anm/envs/anm_env.py:step", "gym_anm/envs/anm_env.py:reset", "gym_anm/envs/anm6_env/anm6_easy.py:ANM6Easy"]}
{"id": "C93", "title": "the documented do-nothing action does nothing", "statement": "In ANM6Easy the action [30, 50, 0, 0, 0, 0], which the documentation presents as doing nothing, is always accepted, and a step with it that does not end the episode leaves the PV plant and the wind farm at exactly their current maximum production with no reactive power (nothing is curtailed), and the storage unit at P = Q = 0 with its stored energy exactly unchanged. An agent that always plays it keeps forever the energy that the reset gave.", "quantifier": "all histories before the reset, all random generators, all points of the episode and hence all potentials and stored energies, all numbers of idle steps", "why_tests_cant": "the set-point 30 or 50 MW is above the potential at almost every time of day, so the claim is about the projection onto a polygon that changes with time, and for the storage unit about limits that depend on the stored energy; the tests of the devices use fixed values", "anchors": ["docs/source/topics/anm6_easy.rst", "gym_anm/simulator/components/devices.py:map_pq", "gym_anm/simulator/components/devices.py:update_soc", "gym_anm/envs/anm_env.py:step", "gym_anm/envs/anm6_env/network.py"]}
{"id": "C94", "title": "reported set-points can be sent back", "statement": "After a step, the simulator reports for every generator and storage unit the active and reactive power that it really injected (dev_p in MW, dev_q in MVAr). Had the agent sent these values as its action instead of the ones that it requested, whatever it requested, the action would have been accepted by the action space and the step would have been the same: same observation, reward and end-of-episode flag, same environment and simulator afterwards. In particular an agent can replay an episode from its recorded injections, and mapping a set-point twice changes nothing.", "quantifier": "all accepted networks, all histories of calls, all requested actions, all demands, potentials and auxiliary variables, all pairs of QP solvers (the first only has to return feasible points, the second nearest points)", "why_tests_cant": "the projected point depends on the potential, the stored energy, the time step and the efficiency, and on nine edges of a polygon; whether every reported point lies inside the polygon from which it came and inside the action space is not visible on a few examples", "anchors": ["gym_anm/simulator/simulator.py:transition", "gym_anm/simulator/components/devices.py:map_pq", "gym_anm/envs/anm_env.py:step", "gym_anm/envs/anm_env.py:_build_action_space"]}
