{"claims": [
 {"property": "C01", "status": "proved", "theorems": ["C01_soc_in_range", "C01_soc_in_range_exact", "C01_soc_in_range_float", "C03_energy_balance"], "note": "NaN is excluded by C03_energy_balance when the QP solver is exact and the start is finite and in range; invariant over all call histories, any ordered number type (exact reals and IEEE binary64)"},
 {"property": "C02", "status": "partial", "theorems": ["C02_refuted", "C02_reset_soc_copied"], "note": "REFUTED: reset copies the SoC entries without clipping (a 500 MWh entry is reported for a 100 MWh unit). Proved: the reported SoC is exactly the entry divided by baseMVA; with in-range entries C01 applies"},
 {"property": "C03", "status": "proved", "theorems": ["C03_soc_step", "C03_energy_balance"], "note": "exact reals, ideal (sound) QP solver, storage efficiency > 0; any number of transitions; the balance is an equality"},
 {"property": "C04", "status": "proved", "theorems": ["C04_generator_nearest"], "note": "exact reals; the external QP solver is assumed to return a nearest point of the half-planes it is given (C06_solver_exists shows such a solver exists)"},
 {"property": "C05", "status": "proved", "theorems": ["C05_storage_nearest"], "note": "exact reals; same assumption on the QP solver"},
 {"property": "C06", "status": "partial", "theorems": ["C06_mapping_succeeds", "C06_solver_exists", "C06_no_pmax_always_fails", "C06_eff0_always_fails", "C06_refuted"], "note": "REFUTED: accepted generators without PMAX and accepted storage units with efficiency 0 can never be mapped; proved under the guard that the limits used by the corner lines are given and the efficiency is not 0"},
 {"property": "C07", "status": "proved", "theorems": ["C07_loads"], "note": "any ordered number type (exact reals and IEEE binary64)"},
 {"property": "C08", "status": "proved", "theorems": ["C08_potential"], "note": "exact reals, up to the tolerance eps of the QP solver (eps = 0: no tolerance)"},
 {"property": "C09", "status": "partial", "theorems": ["C09_flexible_bounds", "C09_load_bounds", "C09_refuted"], "note": "REFUTED for Q of loads with a negative Q/P (bounds inverted); proved for generators, storage units, P of loads, and Q of loads with Q/P >= 0"},
 {"property": "C10", "status": "partial", "theorems": ["C10_per_unit", "C10_load_refuted"], "note": "REFUTED for the PMAX of loads (not divided by baseMVA); proved for all other limits"},
 {"property": "C11", "status": "proved", "theorems": ["C11_network_validation", "C11_network_error"], "note": "iff with an independent declarative spec (SpecNet.v), any number type"},
 {"property": "C12", "status": "partial", "theorems": ["C12_device_validation", "C12_gen_stor_validation", "C12_load_refuted"], "note": "REFUTED for loads: PMAX is compared without division by baseMVA. Proved: exact characterisation of what is accepted; documented rules for generators and storage units"},
 {"property": "C13", "status": "proved", "theorems": ["C13_branch_validation", "C13_bus_validation"], "note": "iff with SpecDev.v, finite cells"},
 {"property": "C14", "status": "proved", "theorems": ["C14_order_and_counts"], "note": "any number type"},
 {"property": "C15", "status": "proved", "theorems": ["C15_kcl"], "note": "exact reals, finite branch cells, non-negative bus IDs"},
 {"property": "C16", "status": "proved", "theorems": ["C16_passive"], "note": "exact reals, all end voltages"},
 {"property": "C17", "status": "proved", "theorems": ["C17_pfe_holds"], "note": "any history, any behaviour of the sparse solver and of the QP solver; exact reals; bus IDs 0..N-1 with slack 0 (as in the statement)"},
 {"property": "C18", "status": "proved", "theorems": ["C18_newton", "C18_no_nan"], "note": "any number type and any linear solver"},
 {"property": "C19", "status": "proved", "theorems": ["C19_jacobian"], "note": "exact reals, any size"},
 {"property": "C20", "status": "proved", "theorems": ["C20_power_balance"], "note": "any history; exact reals"},
 {"property": "C21", "status": "partial", "theorems": ["C21_slack_balance_partial", "C21_slack_balance_refuted"], "note": "REFUTED when another device is attached to the slack bus; proved when the slack generator is alone there"},
 {"property": "C22", "status": "partial", "theorems": ["C22_slack_voltage_partial", "C22_slack_voltage_refuted"], "note": "REFUTED: the solver fixes the slack voltage at 1 p.u. whatever v_slack is; proved: the reported value is 1 p.u., so the property holds when VMAX = 1"},
 {"property": "C23", "status": "partial", "theorems": ["C23_numbering_refuted", "C23_gap_always_fails", "C17_pfe_holds"], "note": "REFUTED: exchanging IDs gives other voltages, IDs with gaps make every transition raise; proved for IDs 0..N-1 with slack 0 (C17)"},
 {"property": "C24", "status": "partial", "theorems": ["C24_branch_s_partial", "C24_branch_s_refuted"], "note": "REFUTED at P_from = 0 (branch_s is 0 whatever flows); proved for P_from <> 0"},
 {"property": "C25", "status": "partial", "theorems": ["C25_branch_current_partial", "C25_branch_current_refuted"], "note": "REFUTED with numpy 2: the reported value is the real part of the current; proved: it never exceeds the modulus and equals it iff the current is real"},
 {"property": "C26", "status": "proved", "theorems": ["C26_energy_loss"], "note": "any history; exact reals"},
 {"property": "C27", "status": "partial", "theorems": ["C27_penalty_partial", "C27_penalty_refuted"], "note": "REFUTED for overloads at P_from = 0; proved for all other branches"},
 {"property": "C28", "status": "proved", "theorems": ["C28_simulator_reward", "C28_step_reward", "C28_unlimited", "C28_reward_bounds"], "note": "C28_step_reward: any costs that are not NaN; C28_reward_bounds: finite networks, from the energy loss and penalty theorems C26 and C27"},
 {"property": "C29", "status": "proved", "theorems": ["C29_absorbing"], "note": "any number type, any history"},
 {"property": "C30", "status": "partial", "theorems": ["C30_collapse_better_refuted", "C30_gamma_one_refuted", "C30_collapse_partial"], "note": "REFUTED: collapsing can beat surviving for ever, because the energy loss is paid on top of the clipped penalty, and gamma = 1 raises ZeroDivisionError; proved: the collapse reward is -c2/(1-gamma) and a surviving return is at least that minus c1/(1-gamma), and at least it when every reward is >= -c2"},
 {"property": "C31", "status": "partial", "theorems": ["C31_state_power_units", "C31_state_angle_units", "C31_state_bus_units", "C31_bound_power_units", "C31_bound_angle_units", "C31_bound_voltage_units", "C31_gen_p_max_refuted"], "note": "REFUTED for the upper bound of gen_p_max (MW bound is q_max); proved for all reported values and all other bounds"},
 {"property": "C32", "status": "proved", "theorems": ["C32_bus_bounds"], "note": "exact reals, up to the QP tolerance per device"},
 {"property": "C33", "status": "proved", "theorems": ["C33_reset_erases_history"], "note": "any number type, any history"},
 {"property": "C34", "status": "proved", "theorems": ["C34_markov"], "note": "any number type, any history ending with a call that returned"},
 {"property": "C35", "status": "proved", "theorems": ["C35_save_restore"], "note": "exact extended reals; literal equality of the whole simulator object and of the convergence flag; hypotheses: mappable rows (as in C06), SoCs in range before the transition (an invariant after an in-range reset, C01), numeric inputs, QP solver sound for the transition and exact for the reset, same linear solver"},
 {"property": "C36", "status": "proved", "theorems": ["C36_action_layout"], "note": "any number type, any history; the action space is the concatenation of the advertised bounds, and every step hands entry i to the device of entry i"},
 {"property": "C37", "status": "proved", "theorems": ["C37_next_vars"], "note": "any number type, any history"},
 {"property": "C38", "status": "proved", "theorems": ["C38_state_layout"], "note": "any number type, any history"},
 {"property": "C39", "status": "proved", "theorems": ["C39_in_space"], "note": "any ordered number type, any history; observation 'state' or a list (callables: C61); with lower bounds <= upper bounds the assertion fires only on NaN"},
 {"property": "C40", "status": "partial", "theorems": ["C40_observation_list_partial", "C40_branch_i_magn_refuted", "C40_negative_aux_refuted"], "note": "REFUTED: branch_i_magn without its unit is accepted and then raises KeyError at construction; a negative index of an auxiliary variable is accepted and shows another entry of the state; proved for every other documented list"},
 {"property": "C41", "status": "partial", "theorems": ["C41_reset_sampling_partial", "C41_hundredth"], "note": "REFUTED: a sample that converges only at the 100th attempt is thrown away, and the error is AttributeError instead of EnvInitializationError; proved for everything else"},
 {"property": "C42", "status": "proved", "theorems": ["C42_bookkeeping"], "note": "any number type, any history"},
 {"property": "C43", "status": "proved", "theorems": ["C43_aux_verbatim"], "note": "any number type, any history"},
 {"property": "C44", "status": "proved", "theorems": ["C44_time_index", "C44_period"], "note": "any number type whose fmod and int are right on 0..96; proved for exact arithmetic (clock_XR) and binary64 (clock_float)"},
 {"property": "C45", "status": "proved", "theorems": ["C45_dates"], "note": "any history before the reset; date = start + 15 min per step, year count, and agreement with the index when the start is at midnight"},
 {"property": "C46", "status": "partial", "theorems": ["C46_series_partial", "C46_pv_refuted", "C46_wind_refuted"], "note": "REFUTED for the PV potential (exceeds 30 MW at 50,51,65,66) and the wind ramp (14.725 for 14.625); proved: the demands throughout, the potentials outside the two ramps, wind limits"},
 {"property": "C47", "status": "partial", "theorems": ["C47_initial_sample", "C47_initial_soc", "C47_refuted", "C47_sample_refuted"], "note": "REFUTED: the initial charge is uniform over [0,1] MWh of 100 MWh and the initial reactive powers over a hundredth of their range; proved: what the initial sample is"},
 {"property": "C48", "status": "proved", "theorems": ["C48_action"], "note": "Generic over the arithmetic, any solver answer; the entries are planned_action (SpecMpc.v) clamped to the action bounds. Acceptance by the environment needs non-NaN set-points and ordered bounds, as stated."},
 {"property": "C49", "status": "proved", "theorems": ["C49_perfect_forecast", "C49_forecast_happens"], "note": "The first holds for any arithmetic in which the time index is exact; the second (exact arithmetic) reads the forecast values in the simulator after the corresponding step (PV potential cut at 30 MW). ExMpc.v shows a binary64 run."},
 {"property": "C50", "status": "proved", "theorems": ["C50_constant_forecast"], "note": "Generic over the arithmetic, any past of the simulator."},
 {"property": "C51", "status": "proved", "theorems": ["C51_plan_soc"], "note": "All horizons, networks, forecasts and feasible plans, exact arithmetic; the simulator's law (simulated_soc, SpecMpc.v) includes its clipping, which never acts on a plan that does not charge and discharge at once"},
 {"property": "C52", "status": "partial", "theorems": ["C52_balanced_partial", "C52_balanced_refuted"], "note": "REFUTED: with a lossy phase-shifting branch the imaginary part of Y is not symmetric and feasible plans create or destroy power; proved when every branch is lossless or unshifted"},
 {"property": "C53", "status": "partial", "theorems": ["C53_reference_partial", "C53_reference_refuted", "C53_unusable"], "note": "REFUTED: the position of the slack device among the devices is used as bus index, so another bus may be the reference, or every call raises IndexError (C53_unusable); proved when the two positions coincide"},
 {"property": "C54", "status": "proved", "theorems": ["C54_every_kth_call"], "note": "any number type, any history without close and without a reset that raises while rendering; also says what the frame shows and that no other call sends frames"},
 {"property": "C55", "status": "partial", "theorems": ["C55_servers_partial", "C55_render_before_reset_refuted", "C55_failed_reset_refuted", "C55_failed_start_refuted"], "note": "REFUTED: rendering before the first reset, a reset that raises while rendering, or servers that fail to start leak a pair of servers that close does not stop (after a failed start no later call renders anything or tries again); proved for every other history"},
 {"property": "C56", "status": "partial", "theorems": ["C56_late_client_partial", "C56_early_client_refuted", "C56_refuted"], "note": "REFUTED: a browser that connects before the init message is processed (rendering.start opens it before sending that message) receives updates only; proved for clients that connect after it"},
 {"property": "C57", "status": "proved", "theorems": ["C57_random_date", "C57_first_day_never"], "note": "always a midnight of the year; never January 1st (nor December 31st of a leap year)"},
 {"property": "C58", "status": "proved", "theorems": ["C58_angles_in_range", "C58_advertised_ranges", "C58_within_advertised"], "note": "NaN or within [-pi,pi] / [-180,180]; the advertised ranges are these, and [0,0] for the voltage angle of the slack bus, which holds when the slack bus is bus 0 and the power flow converged"},
 {"property": "C59", "status": "partial", "theorems": ["C59_argument_checks", "C40_negative_aux_refuted"], "note": "REFUTED: negative indices of auxiliary variables and pieces of the string 'pu' are accepted; proved: exactly the wrong arguments raise ArgsError, lists with any other undocumented tuple are rejected"},
 {"property": "C60", "status": "proved", "theorems": ["C60_seeded"], "note": "any number type, any histories before the reset; a callable observation is assumed to return arrays of one size"},
 {"property": "C61", "status": "partial", "theorems": ["C61_callable_refuted"], "note": "REFUTED: with a callable that returns a float64 array (what numpy gives) no reset ever succeeds, because the default Box has dtype float32"},
 {"property": "C62", "status": "proved", "theorems": ["C62_step_returns"], "note": "for documented observation lists, ordered bounds and no NaN in the observed entries"},
 {"property": "C63", "status": "proved", "theorems": ["C63_step_values", "C63_reset_values"], "note": "exact arithmetic, any history; a binary64 run is in C44_ex"},
 {"property": "C64", "status": "partial", "theorems": ["C64_dc_flow_partial", "C64_dc_flow_refuted", "C64_gap_infeasible"], "note": "REFUTED: the admittance matrix is indexed by bus ID but the agent reads it by bus position, so with gaps in the bus IDs plans ignore the lines, or no plan is feasible as soon as a load is non-zero (C64_gap_infeasible); proved for bus IDs 0..N-1 and branches without phase shift"},
 {"property": "C65", "status": "proved", "theorems": ["C65_plan_limits", "C65_action_is_plan"], "note": "opf_sound: the optimiser returns the first stage of a feasible plan when it returns"},
 {"property": "C66", "status": "proved", "theorems": ["C66_plan_executed"], "note": "exact QP solver and sound optimiser as hypotheses; network rows with ordinary numbers"},
 {"property": "C67", "status": "partial", "theorems": ["C67_problem_partial", "C67_generation_partial", "C67_optimal_partial"], "note": "the three restrictions on the network cannot be removed: C64_dc_flow_refuted, C52_balanced_refuted and C53_reference_refuted show plans that violate the DC power flow, the balance or the reference without them; exact arithmetic; the convex optimiser is an argument assumed exact"},
 {"property": "C68", "status": "proved", "theorems": ["C68_transition_errors", "C68_reset_errors", "C68_reset_never_raises", "C68_transitions_never_raise", "C68_single_bus_refuted", "C68_slack_vmin_refuted", "C68_linear_solver_exists"], "note": "the conditions are needed: accepted networks with a single bus, or whose slack bus has no VMIN, raise at every transition and reset (proved); the linear solver is assumed to return a vector of the right size (scipy's spsolve does, with a warning on singular matrices)"},
 {"property": "C69", "status": "proved", "theorems": ["C69_state_finite", "C69_reward_finite"], "note": "exact arithmetic with IEEE infinities and NaN as values (overflow of binary64 is not modelled); the SoC condition on the reset is needed because reset stores whatever SoC it is given (C02)"},
 {"property": "C70", "status": "proved", "theorems": ["C70_episodes_return", "C70_nothing_raises"], "note": "exact arithmetic; the observation is a documented list whose advertised bounds are in order (C62); the solvers are assumed total and exact (existence proved in C06_solver_exists and C68_linear_solver_exists)"},
 {"property": "C71", "status": "proved", "theorems": ["C71_reset_loads", "C71_reset_potentials", "C71_reset_generators", "C71_reset_storage"], "note": "loads over any ordered arithmetic; the others in exact arithmetic with the QP solver sound or exact, finite device data and given limits; a network meeting the hypotheses is in C71_ex"},
 {"property": "C72", "status": "partial", "theorems": ["C72_calendar", "C72_reset_date", "C72_year_count_kept", "C72_year_count_refuted"], "note": "REFUTED in one point: reset_date does not reset the year count although its docstring says so (C72_year_count_refuted, a run of binary64 arithmetic; the count is corrected by the next step); the rest is proved for any arithmetic"},
 {"property": "C73", "status": "proved", "theorems": ["C73_dates_irrelevant", "C73_random_start", "C73_easy_start", "C73_unseeded_refuted"], "note": "any arithmetic; C73_unseeded_refuted proves the last remark (a binary64 run in which giving date_init changes the initial state drawn by the next unseeded reset)"},
 {"property": "C74", "status": "proved", "theorems": ["C74_constructed", "C74_easy_resets", "C74_easy_returns", "C74_easy_rewards"], "note": "exact arithmetic. The hypothesis that a first reset returned is needed: when the first reset gives up, no date was set and a step raises TypeError. ExEasy.v runs a reset, a step, a diverging step and a step of the ended episode in binary64"},
 {"property": "C75", "status": "proved", "theorems": ["C75_constructed_iff_valid", "C75_negative_ids_refuted"], "note": "exact arithmetic; PMAX of loads read unscaled as in C12; C75_negative_ids_refuted proves the remark on negative IDs (IDs 0 and -1 accepted with a one-row matrix, IDs -2 and -3 refused with ValueError)"},
 {"property": "C76", "status": "proved", "theorems": ["C76_bus_device_order", "C76_row_order", "C76_env_row_order", "C76_binary64_refuted"], "note": "C76_binary64_refuted proves the remark on binary64 (ANM6 network, rows reversed). With 'all' branches the observation lists them in file order, so its components move with the rows; that case is excluded by the statement"},
 {"property": "C77", "status": "proved", "theorems": ["C77_slack_power", "C77_exact", "C77_binary64"], "note": "C77_slack_power in every arithmetic whose infinity is not NaN; C77_exact in exact arithmetic for per unit, MW and MVAr; C77_binary64 for per-unit values in binary64 (in MW the product with baseMVA could be NaN only for an infinite baseMVA and a zero power)"},
 {"property": "C78", "status": "proved", "theorems": ["C78_message", "C78_rates", "C78_slack_vmin_refuted"], "note": "C78_message in every arithmetic; C78_rates in exact arithmetic. Restriction found: get_rendering_specs also needs VMIN of the slack bus, which the file format lets be missing; C78_slack_vmin_refuted is a valid file whose simulator raises TypeError there"},
 {"property": "C79", "status": "partial", "theorems": ["C79_default_costs_refuted", "C79_collapse_refuted", "C79_message_partial", "C79_frame_partial"], "note": "REFUTED: with costs_clipping=None (or (None, None), as documented) the first message contains Infinity and the documented default range (100, 10000) is never used (C79_default_costs_refuted); the frame of a collapsed ANM6Easy network contains NaN and Infinity, so the browser cannot parse the message that should say 'network collapsed' (C79_collapse_refuted, binary64). Proved: the first message is finite when the clipping limits are finite, every branch has a RATE and the bounds of the devices are finite (C79_message_partial); frames are finite after converged power flows under the conditions of C69 (C79_frame_partial)"},
 {"property": "C80", "status": "proved", "theorems": ["C80_light_load", "C80_light_enough", "C80_solver_exists", "C80_simple_network"], "note": "exact arithmetic, exact linear solver (C80_solver_exists); a theorem of the kind of Newton-Kantorovich for the power-flow equations: under 48 (z y) (z s) <= 1 the iterates stay in a ball and the residual goes below the tolerance within the 100 iterations; the bound is sufficient, not necessary"},
 {"property": "C81", "status": "proved", "theorems": ["C81_simple_environment", "C81_solvers_exist", "C81_draws"], "note": "exact arithmetic and exact solvers (C81_solvers_exist says there are some); the draws of the global generator are arbitrary values of the documented ranges"},
 {"property": "C82", "status": "partial", "theorems": ["C82_built", "C82_devices_refuted", "C82_time_refuted", "C82_draws"], "note": "REFUTED: next_vars returns load, generator, load, generator, load but step reads the loads first, so that after every step the industrial complex (device 3) draws 0 MW and the wind farm (device 4) has a potential of 0 MW (C82_devices_refuted); aux_bounds is [0, 10] while the index runs from 0 to 95, so that the observation shows min(index, 10) (C82_time_refuted, which also says that the state itself holds the right index)"},
 {"property": "C83", "status": "proved", "theorems": ["C83_attained", "C83_solver", "C83_agent_built", "C83_mpc_never_fails", "C83_closed_loop"], "note": "exact arithmetic; a horizon of 0 steps always raises IndexError in the model; C83_attained is the general fact (any network meeting the conditions of C67 with finite limits and efficiencies in (0, 1))"},
 {"property": "C84", "status": "partial", "theorems": ["C84_written", "C84_written_exact", "C84_accepted", "C84_device_lost_refuted", "C84_second_slack_refuted"], "note": "REFUTED for the last sentence: uniqueness is checked on the numbers as written and objects are keyed by their integer part, so devices of IDs 1 and 1.5 are accepted and the first disappears; a bus of type 0.5 is not counted as slack and becomes one. Proved: the two other sentences, and that one object per row is built exactly when the integer parts of the IDs differ"},
 {"property": "C85", "status": "partial", "theorems": ["C85_never_raises", "C85_drawn", "C85_last_update_partial", "C85_stale_color_refuted"], "note": "REFUTED for the last sentence: the colour of the bar of a branch loaded below 0.5 % is looked up at index -1, the assignment is ignored and the bar keeps the colour of an earlier update. Proved: everything else, and independence of earlier updates for every other attribute of every element"},
 {"property": "C86", "status": "partial", "theorems": ["C86_any_history", "C86_shows", "C86_alarm", "C86_after_reset_refuted"], "note": "REFUTED for resets: reset announces costs of 0 although its first state may violate the limits, so the first picture can show a red cross beside a penalty of 0 (binary64 run of ANM6Easy). Proved: everything else. Frames of collapsed networks contain NaN and are not valid JSON (C79)"},
 {"property": "C87", "status": "proved", "theorems": ["C87_penalty", "C87_penalty_sign", "C87_reward", "C87_collapse", "C87_easy"], "note": "the equivalence needs delta_t * lambda >= 1 (25 in ANM6Easy): with a smaller factor a product can underflow to 0. C87_easy assumes that fmod and int() are right on small integers"},
 {"property": "C88", "status": "proved", "theorems": ["C88_power", "C88_angle", "C88_voltage", "C88_current", "C88_soc", "C88_degrees"], "note": "gen_p_max in MW is excluded: its advertised upper bound is q_max (refuted under C31)"},
 {"property": "C89", "status": "proved", "theorems": ["C89_history", "C89_idle"], "note": "the exact accounting over the reals is C03"},
 {"property": "C90", "status": "proved", "theorems": ["C90_mpc_script", "C90_random_agent"], "note": "exact arithmetic; the wrappers of gym.make and failures of the operating system are left out"},
 {"property": "C91", "status": "proved", "theorems": ["C91_markov", "C91_easy"], "note": "exact arithmetic; the solvers' behaviour is an argument of each step, the same in both runs; base power finite; both environments already have their observation space"},
 {"property": "C92", "status": "proved", "theorems": ["C92_observed"], "note": "exact arithmetic; a QP solver whose points satisfy the constraints; the documentation says o_t = s_t without the exception of the slack generator"},
 {"property": "C93", "status": "proved", "theorems": ["C93_do_nothing", "C93_idle_episode"], "note": "exact arithmetic; a QP solver that returns the nearest feasible point"},
 {"property": "C94", "status": "proved", "theorems": ["C94_transition", "C94_step"], "note": "exact arithmetic; the linear solver is the same function in both runs"}
]}
