{"id": "C01", "title": "Unit conversion is a loss-free round trip", "statement": "Converting a value of any supported property (m, v, p, h, T, Td_bp, vol, x, s) from any supported unit to SI and back returns the value that went in, and converting an SI value out and back in does the same. Temperature is affine (offset then factor), every other property is a pure scaling; conversion is strictly monotone. An unsupported property/unit pair is reported as an error and never silently converted.", "quantifier": "for every property, every unit in that property's table and every real value", "why_tests_cant": "tests convert a handful of numbers in a few units; the claim is about every value and every entry of the unit table", "anchors": ["src/tespy/tools/helpers.py: convert_to_SI, convert_from_SI", "src/tespy/tools/global_vars.py: fluid_property_data"]}
{"id": "C02", "title": "Network.set_attr keeps unit and range settings consistent", "statement": "After a successful Network.set_attr call each unit that was passed is the unit in force, every *_range that was passed is stored as the SI image of what the user typed in the unit in force after the call, and nothing else changed. After any history of calls (also raising ones) every unit in force is a supported unit.", "quantifier": "for every network state and every keyword dictionary", "why_tests_cant": "the number of keyword combinations and orders is unbounded and the error path after a partial application is rarely exercised", "anchors": ["src/tespy/networks/network.py: Network.set_attr, Network.set_defaults"]}
{"id": "C03", "title": "A characteristic line interpolates and clamps", "statement": "For a characteristic line with strictly increasing abscissae and extrapolation off, evaluating at a data point returns that point's ordinate, evaluating outside the data returns the first/last ordinate, every value lies between the smallest and largest ordinate, between neighbouring points the value is their linear interpolation, and the function is continuous. With extrapolation on, values outside follow the first/last segment's straight line.", "quantifier": "for every length, every strictly increasing x, every y and every evaluation point", "why_tests_cant": "tests evaluate a few lines at a few points; off-by-one slips in the bracketing show only for particular positions", "anchors": ["src/tespy/tools/characteristics.py: CharLine.__init__, CharLine.evaluate"]}
{"id": "C04", "title": "A characteristic map interpolates and clamps in both directions", "statement": "Evaluating a characteristic map with strictly increasing x and strictly increasing rows y returns the table value at each node, never leaves the range of the tabulated z values, and equals the value at the nearest border when x or y is outside the table.", "quantifier": "for every table size, every well-formed table and every (x, y)", "why_tests_cant": "two-dimensional bracketing has many border cases; tests sample a few", "anchors": ["src/tespy/tools/characteristics.py: CharMap.evaluate, CharMap.evaluate_x, CharMap.evaluate_y"]}
{"id": "C05", "title": "Evaluating a component never changes the characteristic map it was given", "statement": "Computing the residual of a compressor that uses a characteristic map leaves the stored map (x, y, z) exactly as the user supplied it, so evaluating the same operating point twice yields the same residual.", "quantifier": "for every map, every inlet guide vane angle and every operating point", "why_tests_cant": "the corruption only shows when the operating point leaves the speed-line range, with a non-zero vane angle, and after repeated evaluation", "anchors": ["src/tespy/components/turbomachinery/compressor.py: char_map_pr_func, char_map_eta_s_func, check_parameter_bounds", "src/tespy/tools/characteristics.py: CharMap.evaluate_x"]}
{"id": "C06", "title": "The scalar Newton solver stays in its bounds and terminates", "statement": "newton_with_kwargs returns after at most 13 iterations, whatever the function and derivative do, and the value returned lies between valmin and valmax when valmin <= valmax; on affine functions with a solution inside the bounds it returns that solution.", "quantifier": "for every function, derivative, start value, target, tolerance and iteration limit", "why_tests_cant": "property functions misbehave in unforeseen places (flat, jumping, wrong sign); tests use friendly functions", "anchors": ["src/tespy/tools/helpers.py: newton_with_kwargs"]}
{"id": "C07", "title": "The scalar Newton solver honours its iteration limit and its tolerance", "statement": "newton_with_kwargs performs at most max_iter + 1 evaluations, and when it returns, the returned value satisfies the requested tolerance or the caller is told that it does not.", "quantifier": "for every function, derivative, start value, target, tolerance and iteration limit", "why_tests_cant": "needs a function that does not converge and an unusual iteration limit", "anchors": ["src/tespy/tools/helpers.py: newton_with_kwargs"]}
{"id": "C08", "title": "Numerical derivatives leave the state untouched and are exact on affine equations", "statement": "Taking the numerical derivative of an equation with respect to mass flow, pressure, enthalpy, a component variable or a fluid mass fraction of at least the step width leaves the variable with the value it had before, returns the exact slope of an equation that is affine in that variable, and for a differentiable equation the derivative at a point within the step width. The derivatives of property functions are taken on copies: exact for affine functions, otherwise the derivative at a point closer than the step width.", "quantifier": "for every equation, every current value and every variable kind", "why_tests_cant": "a restored value or a truncated step near the limits 0 and 1 only matters for particular values", "anchors": ["src/tespy/tools/helpers.py: _numeric_deriv, central_difference"]}
{"id": "C09", "title": "Connection.set_attr sets exactly what was asked for", "statement": "After Connection.set_attr(...) returns normally each named property is set to the value given (or unset when None is given, or referenced when a Ref is given) and no property that was not named has changed; the last of several successive calls wins.", "quantifier": "for every connection state and every keyword dictionary", "why_tests_cant": "the interplay of numeric, None, nan, Ref and starting-value specifications over arbitrary call histories cannot be enumerated", "anchors": ["src/tespy/connections/connection.py: Connection.set_attr, _parameter_specification"]}
{"id": "C10", "title": "None withdraws a specification", "statement": "Passing None for a property of a connection in set_attr is always accepted, afterwards the property has neither a value nor a reference specification, and mass flow, pressure and enthalpy are solver variables again.", "quantifier": "for every connection state and every property", "why_tests_cant": "needs every prior combination of value and reference specification", "anchors": ["src/tespy/connections/connection.py: set_attr, _parameter_specification"]}
{"id": "C11", "title": "Fluid specifications follow the last entry per fluid", "statement": "After any history of set_attr calls passing fluid, fluid0 and fluid_engines dictionaries, a fluid is specified exactly if the last entry given for it was a number, its mass fraction is the number given last and its back end the one named last; specified fluids always have a value and are never variable; the engines are those given last.", "quantifier": "for all histories of calls", "why_tests_cant": "histories of merges and withdrawals are unbounded", "anchors": ["src/tespy/connections/connection.py: set_attr, _fluid_specification"]}
{"id": "C12", "title": "Component.set_attr state machine and parameter groups", "statement": "After Component.set_attr a numeric value makes the parameter a fixed specification, 'var' makes it a system variable, None withdraws it, and parameters not named are unchanged; when the component is prepared for solving a parameter group contributes its equation exactly when all its elements are specified.", "quantifier": "for every component, every history of set_attr calls and every group", "why_tests_cant": "call histories are unbounded and groups are re-derived at each solve", "anchors": ["src/tespy/components/component.py: Component.set_attr, Component.preprocess"]}
{"id": "C13", "title": "Connection labels stay unique and findable", "statement": "Through any history of add_conns, del_conns (successful or raising) the network never holds two connections with the same label, get_conn finds a connection exactly when it is part of the network, and deleting a connection the network does not have raises KeyError.", "quantifier": "for every history of additions and removals, including calls that raise", "why_tests_cant": "histories are unbounded and the failing call may come anywhere", "anchors": ["src/tespy/networks/network.py: add_conns, del_conns, get_conn"]}
{"id": "C14", "title": "The component table mirrors the connections", "statement": "After any history of successful add_conns and del_conns calls (removing connections of the network) the set of components known to the network is exactly the set of sources and targets of its connections; component labels are unique and get_comp finds exactly the components of the table, also after calls that raised.", "quantifier": "for every history of additions and removals", "why_tests_cant": "the number of possible histories is unbounded", "anchors": ["src/tespy/networks/network.py: add_conns, del_conns, _add_comps, _del_comps, get_comp"]}
{"id": "C15", "title": "A checked network uses every port exactly once and every component is fully connected", "statement": "The connection and component checks of a network pass exactly if every declared inlet and outlet of every component is used by exactly one connection; the connection lists of a component then hold one connection per port, sorted by port name.", "quantifier": "for every set of connections", "why_tests_cant": "topologies are unbounded", "anchors": ["src/tespy/networks/network.py: check_conns, check_components, init_components, check_network"]}
{"id": "C16", "title": "Branch construction terminates and never claims a connection twice", "statement": "For every topology, checking a network either reports a topology error or returns its mass flow branches; no connection is listed twice, the listed connections are exactly those on a stream that begins at a branch source, all connections of one branch carry the same mass flow whenever the components' mass balances hold (including drums with circulation), and the fluid branches regroup the same branches.", "quantifier": "for every topology of the component classes, including loops, drums, splitters and merges, with the interpreter's recursion limit above the number of connections", "why_tests_cant": "topologies are unbounded", "anchors": ["src/tespy/networks/network.py: check_network, create_massflow_and_fluid_branches", "src/tespy/components/component.py: propagate_to_target", "src/tespy/components/nodes/drum.py: propagate_to_target", "src/tespy/components/nodes/base.py: propagate_to_target", "src/tespy/tools/helpers.py: get_all_subdictionaries"]}
{"id": "C17", "title": "Mass flow reduction shares one variable per branch and keeps the specification", "statement": "Presolving mass flows makes all connections of a branch use one and the same mass flow, which is fixed to the branch's single user specification if there is one and a variable otherwise; two specifications, or a specification and a reference into the same branch, are rejected with an error.", "quantifier": "for every branch partition and every assignment of specifications", "why_tests_cant": "the position of the specification inside a branch and its interplay with references is combinatorial", "anchors": ["src/tespy/networks/network.py: presolve_massflow_topology"]}
{"id": "C18", "title": "Solving leaves the mass flow specifications as they were", "statement": "After solve() returns, each connection again owns its own mass flow with exactly the specification the user made, all connections of a branch carry the solved value, and any number of further solves sees the same specifications.", "quantifier": "for every network, every solver result and every number of repetitions", "why_tests_cant": "the aliasing introduced by the presolver only matters for the next call", "anchors": ["src/tespy/networks/network.py: solve, presolve_massflow_topology, reset_topology_reduction_specifications"]}
{"id": "C19", "title": "Fluid composition reduction is consistent", "statement": "Every connection learns exactly the fluids that occur in its part of the network; presolving fluid compositions keeps each fraction the user fixed, fixes the single missing fraction to one minus the rest, sets absent fluids to zero when the fixed fractions already sum to one, leaves two or more open fractions variable, and rejects compositions summing to more than one and fluids fixed twice in a branch with an error.", "quantifier": "for every set of fluids and every assignment of fixed and starting fractions", "why_tests_cant": "numbers of fluids and specification patterns are unbounded", "anchors": ["src/tespy/networks/network.py: propagate_fluid_wrappers, presolve_fluid_topology"]}
{"id": "C20", "title": "Every unknown gets its own column", "statement": "The variable space assigned before solving numbers the unknown mass flows, pressures, enthalpies, fluid fractions and component variables 0..n-1 without gaps or collisions, and shared (reduced) variables get exactly one number.", "quantifier": "for every network", "why_tests_cant": "all combinations of fixed, variable and shared quantities cannot be enumerated", "anchors": ["src/tespy/networks/network.py: _assign_variable_space, presolve_massflow_topology, presolve_fluid_topology, init_components", "src/tespy/components/component.py: preprocess"]}
{"id": "C21", "title": "Every equation gets its own row", "statement": "Provided every component, connection and user defined equation with equations contains an unknown, each iteration leaves the residual vector and the Jacobian with the equations of components, connections, busses and user defined equations in disjoint consecutive rows 0..n-1, no equation overwrites another, and nothing stale from an earlier iteration remains although the arrays are never cleared. If one of them has no unknown the Jacobian has an all zero row.", "quantifier": "for every collection of components, connections, user equations and busses with any numbers of equations and any sets of unknowns, and any number of iterations", "why_tests_cant": "a component or connection whose unknowns are all fixed is an unusual case whose effect (an overwritten row) looks like a numerical problem", "anchors": ["src/tespy/networks/network.py: solve_components, solve_connections, solve_user_defined_eq, solve_busses, matrix_inversion", "src/tespy/components/component.py: solve"]}
{"id": "C22", "title": "Only determined systems are solved", "statement": "The Newton iteration is started only if the number of equations equals the number of unknowns; otherwise solve raises an error naming the surplus or deficit and performs no iteration.", "quantifier": "for every network", "why_tests_cant": "combinatorial in the number of specifications", "anchors": ["src/tespy/networks/network.py: solve_determination, solve"]}
{"id": "C23", "title": "Reported convergence is real", "statement": "If solve() ends with the network flagged as converged, the Newton loop executed at least min_iter and at most max_iter iterations, the Jacobian was regular in the last one, and the residual norm of the last iteration and (if there was one) of the one before is a number below the tolerance. If the network is not converged without an exception then the run made no progress, hit a singular Jacobian or used all iterations. The loop stops at the first iteration which passes the test.", "quantifier": "for every sequence of residual norms, min_iter and max_iter", "why_tests_cant": "sequences of residuals (including nan, singular systems and stagnation) are unbounded", "anchors": ["src/tespy/networks/network.py: solve_loop, solve, iterinfo, matrix_inversion"]}
{"id": "C24", "title": "A Newton update keeps variables in their admissible ranges and fixed values fixed", "statement": "Applying an increment leaves each specified quantity unchanged, keeps positive pressures positive (at most halving them), keeps each mass fraction within [0, 1] and each component variable within its min/max bounds.", "quantifier": "for every state and every increment vector", "why_tests_cant": "increments are arbitrary real vectors", "anchors": ["src/tespy/networks/network.py: update_variables, check_variable_bounds"]}
{"id": "C25", "title": "Value checks change unknowns only and keep mass flows in range", "statement": "The value checks at the end of an iteration, including the convergence checks of the components, change unknown quantities only (even if they raise). Afterwards every unknown mass flow lies in the network's range; in the first four iterations without good starting values so do the unknown pressures of mixtures and the unknown enthalpies of mixtures without specified temperature. The enthalpy of a mixture with specified temperature is moved to the nearest value between one per cent above the highest minimum and one per cent below the lowest maximum temperature of the fluids it contains.", "quantifier": "for every state, every range, every network", "why_tests_cant": "arbitrary values and ranges", "anchors": ["src/tespy/networks/network.py: check_connection_properties, check_variable_bounds", "src/tespy/connections/connection.py: check_pressure_bounds, check_enthalpy_bounds, check_two_phase_bounds, check_temperature_bounds", "src/tespy/components: convergence_check"]}
{"id": "C26", "title": "Variable mass fractions are renormalised", "statement": "After the bound check of an iteration the fixed fractions have kept their values, no fraction is negative (if none was and no specified mass flow is negative), and the mass fractions of every connection with variable composition whose specified fractions are zero sum to one, also if several connections share the composition or a combustion chamber corrects it.", "quantifier": "for every number of fluids, every split into fixed and variable, every fraction vector", "why_tests_cant": "arbitrary vectors and splits", "anchors": ["src/tespy/networks/network.py: check_variable_bounds", "src/tespy/components/combustion/base.py: convergence_check"]}
{"id": "C27", "title": "Mass is conserved by the nodes and reactors", "statement": "If the mass flow equation of a splitter, separator, droplet separator or drum holds, the mass flow entering equals the mass flow leaving (drum: also in the case without equation). The fluid equations of a merge balance every species and imply the total mass balance even when its equation is omitted. A separator balances the fluids it has an equation for, and one more. Fuel cell and electrolyser conserve mass and react two parts of hydrogen with one of oxygen if both their equations are present.", "quantifier": "for every number of ports and fluids and every state satisfying the equations", "why_tests_cant": "sums over arbitrarily many ports and fluids", "anchors": ["src/tespy/components/nodes/base.py: mass_flow_func", "src/tespy/components/nodes/merge.py: fluid_func", "src/tespy/components/nodes/separator.py: fluid_func", "src/tespy/components/nodes/drum.py: mass_flow_func", "src/tespy/components/reactors/fuel_cell.py: mass_flow_func", "src/tespy/components/reactors/water_electrolyzer.py: mass_flow_func"]}
{"id": "C28", "title": "Energy is conserved by every component", "statement": "If the energy equation of a component holds then the enthalpy flow leaving minus the enthalpy flow entering equals the heat and power supplied: heat exchanger, merge, splitter, drum (open and closed loop), droplet separator, valve, turbomachines, simple heat exchangers; for fuel cell and electrolyser with the reaction energy and the reference enthalpies.", "quantifier": "for every state satisfying the component's equations, any number of ports", "why_tests_cant": "arbitrary states and ports", "anchors": ["src/tespy/components/heat_exchangers/base.py: energy_balance_func", "src/tespy/components/nodes/merge.py: energy_balance_func", "src/tespy/components/nodes/drum.py: energy_balance_func", "src/tespy/components/nodes/splitter.py: energy_balance_func", "src/tespy/components/turbomachinery/base.py: energy_balance_func", "src/tespy/components/reactors/fuel_cell.py: calc_P", "src/tespy/components/reactors/water_electrolyzer.py: calc_P"]}
{"id": "C29", "title": "Hand-written Jacobian entries are the true partial derivatives", "statement": "If the ports of a component do not share unknowns (other than inlet and outlet of one stream), each row written by hand equals the gradient of its residual with respect to all unknowns, for any pattern of fixed quantities: mass, fluid, energy and pressure equations of nodes, drum, heat exchangers, turbomachines, pressure ratio and difference, fuel cell, electrolyser, references between connections. Where a row mixes numerical and hand-written entries, each hand-written entry is the partial derivative for arbitrary property functions, also for entries written only in the first iteration.", "quantifier": "for every state, every choice of unknowns, any number of ports, arbitrary property functions", "why_tests_cant": "a wrong entry only slows down or misdirects convergence; equalities of functions over the reals", "anchors": ["src/tespy/components/*: *_deriv", "src/tespy/connections/connection.py: *_deriv"]}
{"id": "C30", "title": "A component only writes Jacobian entries of unknowns", "statement": "The entries written by a component or connection equation (all modelled routines except the temperature equation of the separator) belong to columns of unknowns; specified quantities never receive an entry.", "quantifier": "for every pattern of fixed and unknown quantities", "why_tests_cant": "all patterns of specifications", "anchors": ["src/tespy/components/component.py: is_variable", "src/tespy/components/*: *_deriv"]}
{"id": "C31", "title": "Announced and produced numbers of equations", "statement": "Nodes announce as many pressure equations as they return residuals; separator and electrolyser likewise for fluids and mass flows; the merge does so exactly when either no fluid or every fluid of its dictionary is an unknown at some port; the fuel cell exactly when oxygen inlet and one of hydrogen inlet and water outlet are unknowns.", "quantifier": "for every composition pattern and every pattern of fixed mass flows", "why_tests_cant": "all patterns", "anchors": ["src/tespy/components/nodes/merge.py: get_mandatory_constraints, fluid_func", "src/tespy/components/nodes/separator.py: get_mandatory_constraints, fluid_func", "src/tespy/components/reactors/fuel_cell.py: get_mandatory_constraints, mass_flow_func", "src/tespy/components/nodes/base.py: pressure_equality_func"]}
{"id": "C32", "title": "A satisfied specification is reported back unchanged", "statement": "If the equation generated by a component parameter holds exactly, then the value recomputed after the simulation equals the value specified: pressure ratio, pressure difference, power, heat, isentropic efficiency, terminal differences, effectiveness, specific energy and efficiency of the reactors; kA for uncrossed temperatures; zeta for forward flow above the threshold.", "quantifier": "for every state satisfying the equation", "why_tests_cant": "states form a continuum", "anchors": ["src/tespy/components/heat_exchangers/base.py: calc_parameters", "src/tespy/components/heat_exchangers/simple.py: calc_parameters", "src/tespy/components/component.py: calc_zeta", "src/tespy/components/turbomachinery/turbine.py: calc_parameters"]}
{"id": "C33", "title": "The mean temperature difference is defined and is the logarithmic mean", "statement": "The mean temperature difference in the heat exchanger equations is defined and positive for every set of port temperatures; without crossing it is the logarithmic mean of the two terminal differences (between them, unique, symmetric). For the simple exchanger the same holds when no port is exactly at ambient temperature, with the arithmetic mean if the ports lie on different sides.", "quantifier": "for every combination of port temperatures", "why_tests_cant": "temperatures form a continuum; crossings occur only in intermediate iterations", "anchors": ["src/tespy/components/heat_exchangers/base.py: calculate_td_log", "src/tespy/components/heat_exchangers/simple.py: kA_group_func"]}
{"id": "C34", "title": "Zeta and Darcy pressure losses have the direction of the flow", "statement": "Whenever the zeta or Darcy equation holds the pressure falls in the direction of the flow, for either direction; there is exactly one outlet pressure; a larger flow loses more pressure; below the flow threshold both pressures are equal.", "quantifier": "for every mass flow of either sign, specific volume, geometry and positive friction law", "why_tests_cant": "continuum of states; reversed flow is rarely tested", "anchors": ["src/tespy/components/component.py: zeta_func", "src/tespy/components/heat_exchangers/simple.py: darcy_func"]}
{"id": "C35", "title": "Friction factor laws are well posed", "statement": "Every branch of the Darcy friction factor gives a positive number or searches a zero of a function that has exactly one positive zero; the derivative used for the smooth turbulent branch is the derivative.", "quantifier": "for every Reynolds number, roughness and diameter", "why_tests_cant": "continuum of Reynolds numbers", "anchors": ["src/tespy/tools/fluid_properties/helpers.py: darcy_friction_factor, prandtl_karman, colebrook"]}
{"id": "C36", "title": "Combustion with enough air conserves elements and mass", "statement": "If the reaction equations hold and at least the oxygen needed is supplied, carbon, hydrogen and oxygen leaving equal those entering; the flue gas contains no fuel; inert fluids pass unchanged; with additive molar masses the total mass is conserved and fractions stay normalised; the thermal input is the heating value of all fuel supplied.", "quantifier": "for every set of fuels C_xH_y, every molar masses, compositions and flows, specified or calculated air ratio", "why_tests_cant": "tests use one or two fuels", "anchors": ["src/tespy/components/combustion/base.py: stoichiometry, calc_ti, calc_lambda, mass_flow_func"]}
{"id": "C37", "title": "Exergy split and destruction", "statement": "The thermal and mechanical share of a connection add up to its physical exergy, the thermal share is zero at ambient temperature and both are zero at the ambient state. The exergy destruction of turbines, compressors, pumps, valves, two-sided heat exchangers, drums, merges and combustion chambers is exergy supplied minus exergy leaving, for every position of the temperatures relative to the ambient temperature except the listed cases, in which it is nan; with a closed energy balance it is the ambient temperature times the entropy production.", "quantifier": "for every fluid, state and ambient state", "why_tests_cant": "case distinctions by temperature; sampling does not show that no case is wrong", "anchors": ["src/tespy/connections/connection.py: get_physical_exergy", "src/tespy/components/turbomachinery/turbine.py: exergy_balance, entropy_balance", "src/tespy/components/turbomachinery/compressor.py: exergy_balance", "src/tespy/components/piping/valve.py: exergy_balance", "src/tespy/components/heat_exchangers/base.py: exergy_balance, entropy_balance", "src/tespy/components/nodes/merge.py: exergy_balance, entropy_balance", "src/tespy/components/nodes/drum.py: exergy_balance", "src/tespy/components/combustion/base.py: exergy_balance"]}
{"id": "C38", "title": "Totals of the exergy analysis", "statement": "If every component satisfies its balance, the internal busses carry nothing and fuel and product have the right sign, fuel minus product minus loss equals the destruction of the network, each total is what the busses of that role carry, and no message is given; charging the bus destruction to the component keeps its balance; analyses without fuel or product bus, components on two busses and reserved group names are rejected.", "quantifier": "for every network, bus assignment and efficiency", "why_tests_cant": "arbitrary networks", "anchors": ["src/tespy/tools/analyses.py: ExergyAnalysis.__init__, analyse, evaluate_busses"]}
{"id": "C39", "title": "Mixture composition algebra", "statement": "Molar fractions derived from mass fractions are non-negative, sum to one and determine the mass fractions. Condensation leaves a saturated gas, conserves every fluid by moles and by mass, and happens exactly beyond saturation below the critical temperature. Enthalpy and entropy of the wet mixture are those of liquid, vapour and other gases; ideal gases mix to an ideal gas. Pure fluids do not consult the mixing rule, mixtures need a known one and have no saturation properties.", "quantifier": "for every composition, molar mass, pressure and temperature", "why_tests_cant": "a statement about all compositions", "anchors": ["src/tespy/tools/fluid_properties/helpers.py: get_molar_fractions, calc_molar_mass_mixture, _check_mixing_rule", "src/tespy/tools/fluid_properties/mixtures.py: cond_check, h_mix_pT_ideal_cond, s_mix_pT_ideal_cond, v_mix_pT_ideal", "src/tespy/tools/fluid_properties/functions.py: h_mix_pT"]}
{"id": "C40", "title": "Bus accounting", "statement": "The bus equation holds exactly when the sum of the component contributions equals the bus power; a component with base 'component' contributes its value times the efficiency read at its load, one with base 'bus' its value divided by the efficiency; a numerical efficiency is independent of the load; a calculation at the design state reproduces the design values at load one; the entries of the bus row are central differences of the residual, and exact derivatives for constant efficiencies, whatever containers the components share.", "quantifier": "for every number of components, every characteristic and every component value", "why_tests_cant": "arbitrary characteristics; the implicit load for base 'bus' is found by iteration", "anchors": ["src/tespy/connections/bus.py: Bus.solve, add_comps", "src/tespy/components/component.py: calc_bus_expr, calc_bus_value", "src/tespy/tools/helpers.py: bus_char_evaluation, bus_char_derivative", "src/tespy/components/turbomachinery/base.py: bus_deriv"]}
{"id": "C41", "title": "Export and import preserve the model", "statement": "Exporting a network (whose components belong to registered classes, sit at its connections and carry values of the right type) to a directory without leftovers succeeds, and loading it succeeds and yields a network with the same components of the same classes, the same connections between the same ports in the same order, the same busses, the units of m, p, h, T, x, v, s and the ranges; component parameters keep value, SI value, set and variable flag, limits, lines and maps; connection properties keep value, starting value, SI value, set flag and unit; compositions, engines, back ends, active references, design and offdesign lists, the design path, local_design, printout and the mixing rule are the same, and nothing else of a component changes from its defaults.", "quantifier": "for every such network, class registry, engine availability and earlier contents of the directory that are overwritten", "why_tests_cant": "the set of specification combinations is unbounded; tests round-trip a few networks", "anchors": ["src/tespy/networks/network.py: export, _serialize", "src/tespy/networks/network_reader.py: load_network, _construct_components, _construct_connections, _construct_busses", "src/tespy/connections/connection.py: _serialize, _serializable", "src/tespy/connections/bus.py: _serialize", "src/tespy/tools/data_containers.py: _serialize"]}
{"id": "C42", "title": "Switching between design and offdesign is reversible", "statement": "After any sequence of successful design and offdesign calculations the specified properties (other than the mass flow) and component parameters are exactly those the parameter lists ask for: in offdesign mode the offdesign parameters are specified at their design value and the design parameters are not; back in design mode the specification is the one before the first calculation. References of design parameters are taken back in offdesign mode, no others.", "quantifier": "for every network, all parameter lists and every history of calculations", "why_tests_cant": "histories of mode switches are unbounded", "anchors": ["src/tespy/networks/network.py: init_design, init_offdesign, solve"]}
{"id": "C43", "title": "merge_dicts merges nested dictionaries without losing entries", "statement": "merge_dicts(dict1, dict2) raises exactly if dict1 holds a plain value where dict2 has entries underneath; otherwise the value at each path comes from dict2 if it has one there or at a prefix of it, else from dict1, and the keys are those of both arguments.", "quantifier": "for all finite nested dictionaries", "why_tests_cant": "nesting depth and key combinations are unbounded", "anchors": ["src/tespy/tools/helpers.py: merge_dicts"]}
{"id": "C44", "title": "Bus and user equation registries", "statement": "Through any history of adding and removing busses and user defined equations, including calls that raise, labels stay unique and name the object carrying them; successful calls add and remove exactly their arguments; a component is listed at most once per bus with the settings named in the last call and defaults for the rest.", "quantifier": "for every history of operations", "why_tests_cant": "histories are unbounded", "anchors": ["src/tespy/networks/network.py: add_busses, del_busses, check_busses, add_ude, del_ude", "src/tespy/connections/bus.py: add_comps"]}
{"id": "C45", "title": "A rejected Network.set_attr call changes nothing", "statement": "A Network.set_attr call that raises because of an unknown unit leaves every unit and range setting as it was before the call.", "quantifier": "for every settings state and every keyword combination containing an unsupported unit", "why_tests_cant": "depends on the order in which keywords are processed; needs every combination", "anchors": ["src/tespy/networks/network.py: set_attr"]}
{"id": "C46", "title": "Numerical derivatives are exact for every admissible mass fraction and restore the state when the equation raises", "statement": "For a mass fraction anywhere in [0, 1], zero included, the numerical derivative of an equation affine in it is its exact slope; and if the equation raises while being evaluated, the variable still has the value it had before.", "quantifier": "for all fractions in [0,1] and all equations", "why_tests_cant": "the error only shows at fractions below the step width or in exceptional paths", "anchors": ["src/tespy/tools/helpers.py: _numeric_deriv"]}
{"id": "C47", "title": "At most one specification per connection property", "statement": "A connection property carries either a value or a reference to another connection, not both: giving one withdraws the other.", "quantifier": "for all histories of set_attr calls", "why_tests_cant": "depends on the order of calls", "anchors": ["src/tespy/connections/connection.py: set_attr, _parameter_specification"]}
{"id": "C48", "title": "numpy.nan withdraws a specification", "statement": "As documented in the class docstring of Connection, passing numpy.nan for a property withdraws its specification like None does.", "quantifier": "for every connection state", "why_tests_cant": "only visible by looking at the specification state afterwards", "anchors": ["src/tespy/connections/connection.py: Connection docstring, _parameter_specification"]}
{"id": "C49", "title": "A new composition replaces the old one", "statement": "Specifying fluid={...} on a connection makes the specified composition exactly the given one.", "quantifier": "for all pairs of compositions", "why_tests_cant": "depends on the previously specified composition", "anchors": ["src/tespy/connections/connection.py: _fluid_specification"]}
{"id": "C50", "title": "Every accepted component keyword takes effect", "statement": "Component.set_attr either applies the value passed for a keyword or raises.", "quantifier": "for all components, keywords and values", "why_tests_cant": "silent acceptance is invisible unless every container kind is crossed with every value kind", "anchors": ["src/tespy/components/component.py: set_attr"]}
{"id": "C51", "title": "A rejected topology change leaves the tables in step", "statement": "A call of add_conns or del_conns that raises leaves the component table equal to the set of ends of the network's connections.", "quantifier": "for every state and every argument list", "why_tests_cant": "only visible in the tables after the exception was caught", "anchors": ["src/tespy/networks/network.py: add_conns, del_conns, _add_comps, _del_comps"]}
{"id": "C53", "title": "Every connection belongs to a mass flow branch", "statement": "After a successful network check every connection is part of exactly one mass flow branch.", "quantifier": "for every accepted topology", "why_tests_cant": "needs a topology with a closed loop without CycleCloser next to a valid part", "anchors": ["src/tespy/networks/network.py: create_massflow_and_fluid_branches"]}
{"id": "C54", "title": "Adding and removing busses leaves other results alone", "statement": "add_busses and del_busses change only the results table of the busses passed, never those of component classes or connections.", "quantifier": "for every label", "why_tests_cant": "needs a bus labelled like a component class", "anchors": ["src/tespy/networks/network.py: add_busses, del_busses"]}
{"id": "C55", "title": "Connection lists of a component follow the port numbers", "statement": "After a successful check the i-th inlet (outlet) connection of a component is the one attached to its i-th declared port, for any number of ports.", "quantifier": "for every number of ports", "why_tests_cant": "needs components with ten or more ports", "anchors": ["src/tespy/networks/network.py: init_components"]}
{"id": "C56", "title": "A failing solve leaves the mass flow specifications as they were", "statement": "After solve() raises, each connection owns its own mass flow specification again, so that solving after correcting the input error behaves as if the failed call had not happened.", "quantifier": "for every network and every raising solve", "why_tests_cant": "the aliasing only matters for the next call after a failure", "anchors": ["src/tespy/networks/network.py: solve, initialise, presolve_massflow_topology, reset_topology_reduction_specifications"]}
{"id": "C57", "title": "A fixed composition sums to one", "statement": "After presolving, a branch without variable mass fractions has fractions summing to one (within the tolerance).", "quantifier": "for every assignment of fixed fractions", "why_tests_cant": "needs a specification that fixes every fluid of the network with a total below one", "anchors": ["src/tespy/networks/network.py: presolve_fluid_topology"]}
{"id": "C58", "title": "Solving leaves the fluid specifications as they were", "statement": "After solve() returns, each connection owns its own fluid specification with the values and starting values the user gave; changing the specification of one connection does not change another one's.", "quantifier": "for every network and every composition", "why_tests_cant": "the sharing of dictionaries is invisible until a later change", "anchors": ["src/tespy/networks/network.py: propagate_fluid_wrappers, presolve_fluid_topology, reset_topology_reduction_specifications"]}
{"id": "C59", "title": "Changes between solves take effect", "statement": "A mixing rule or fluid property engine specified on a connection after a solve has the same effect as if it had been specified before.", "quantifier": "for every network", "why_tests_cant": "needs a second solve with a changed model of the fluid", "anchors": ["src/tespy/networks/network.py: propagate_fluid_wrappers", "src/tespy/connections/connection.py: _create_fluid_wrapper"]}
{"id": "C60", "title": "Presolving the fluid composition keeps the balance of equations and unknowns", "statement": "Counting the composition equation of a branch when and only when it is needed, presolving changes the number of equations minus the number of unknowns of a branch only by what the user specified: a fully or partially specified composition consumes exactly as many unknowns as it provides specifications.", "quantifier": "for every number of fluids and every specification pattern", "why_tests_cant": "the counts depend on the combination of branches", "anchors": ["src/tespy/networks/network.py: presolve_fluid_topology, _assign_variable_space, init_set_properties"]}
{"id": "C61", "title": "An equation without unknowns is not lost", "statement": "The residual of every equation takes part in the convergence check, also if all quantities in the equation are specified.", "quantifier": "for every network", "why_tests_cant": "needs a component whose quantities are all specified", "anchors": ["src/tespy/networks/network.py: solve_components, solve_connections, solve_user_defined_eq"]}
{"id": "C62", "title": "Convergence means two consecutive small residuals", "statement": "A network is flagged as converged only if the residual norm was below the tolerance in two consecutive iterations.", "quantifier": "for every sequence of residual norms and every min_iter", "why_tests_cant": "needs a run with unusual settings", "anchors": ["src/tespy/networks/network.py: solve_loop"]}
{"id": "C63", "title": "The reported values satisfy the equations", "statement": "If the network is flagged as converged the equations hold within the tolerance at the values which are reported.", "quantifier": "for every system of equations", "why_tests_cant": "needs a system that is ill conditioned at its starting point", "anchors": ["src/tespy/networks/network.py: solve_loop, solve_equations, update_variables"]}
{"id": "C64", "title": "Aborting for lack of progress", "statement": "A run whose residual norm falls by more than five per cent in each iteration is never aborted for lack of progress; an abort happens only after 42 iterations with the last four norms at or above 95 per cent of the third last, and the run is then not converged; a run standing still above the tolerance is stopped after 42 iterations.", "quantifier": "for every sequence of residual norms", "why_tests_cant": "sequences of residual norms are unbounded", "anchors": ["src/tespy/networks/network.py: solve_loop"]}
{"id": "C65", "title": "Unknown pressures and enthalpies lie in the ranges of the network", "statement": "After the value checks of an iteration every unknown pressure and enthalpy lies in the range set with p_range and h_range.", "quantifier": "for every state and range", "why_tests_cant": "arbitrary values and ranges", "anchors": ["src/tespy/networks/network.py: check_connection_properties"]}
{"id": "C66", "title": "Unknown pressures and enthalpies of pure fluids lie in the ranges of the fluid", "statement": "After the value checks an unknown pressure or enthalpy of a pure fluid lies within the limits of the fluid property model, and a connection specified as gaseous or liquid lies on that side of the saturation line.", "quantifier": "for every fluid property model, also with negative enthalpies", "why_tests_cant": "the reference point of the enthalpy depends on the fluid and its property database", "anchors": ["src/tespy/connections/connection.py: check_pressure_bounds, check_enthalpy_bounds, check_two_phase_bounds"]}
{"id": "C67", "title": "Variable compositions are complete after an iteration", "statement": "After each iteration the fractions of a connection with variable composition sum to one, whatever the update and the specified fractions.", "quantifier": "for every increment and every composition", "why_tests_cant": "arbitrary increments", "anchors": ["src/tespy/networks/network.py: update_variables, check_variable_bounds"]}
{"id": "C68", "title": "Jacobian rows are right when ports share an unknown", "statement": "The hand-written rows equal the gradient of the residual also when two streams of a component share one unknown because of the topology reduction, e.g. a recuperator with the same mass flow on both sides or a merge of two streams with one common composition.", "quantifier": "for every sharing pattern", "why_tests_cant": "sharing arises from the topology of the whole network", "anchors": ["src/tespy/components/heat_exchangers/base.py: energy_balance_deriv", "src/tespy/components/nodes/merge.py: fluid_deriv", "src/tespy/networks/network.py: create_massflow_and_fluid_branches"]}
{"id": "C69", "title": "Component variables have correct Jacobian columns", "statement": "If a component parameter is declared a variable, every equation containing it has the correct derivative in the column of that variable.", "quantifier": "for every component parameter that accepts 'var'", "why_tests_cant": "all combinations of parameters and equations", "anchors": ["src/tespy/components/turbomachinery/pump.py: eta_s_deriv", "src/tespy/components/heat_exchangers/base.py: energy_balance_hot_deriv", "src/tespy/components/component.py: pr_deriv", "src/tespy/components/reactors/fuel_cell.py: eta_deriv"]}
{"id": "C70", "title": "Jacobian entries for mass fractions are right", "statement": "The entries for variable mass fractions of the fluid balance and of temperature references are the partial derivatives.", "quantifier": "for every composition", "why_tests_cant": "all compositions", "anchors": ["src/tespy/connections/connection.py: fluid_balance_deriv, T_ref_deriv"]}
{"id": "C71", "title": "The increment filter does not change the Jacobian", "statement": "Skipping entries of unknowns with a negligible last increment leaves rows that are still the gradient of the residual.", "quantifier": "for every sequence of iterates", "why_tests_cant": "sequences of states", "anchors": ["src/tespy/components/component.py: is_variable", "src/tespy/components/heat_exchangers/base.py: energy_balance_deriv"]}
{"id": "C72", "title": "The temperature equation of a separator only writes columns of unknowns", "statement": "The entries of the temperature equality of the separator belong to columns of unknowns.", "quantifier": "for every pattern of fixed pressures and enthalpies", "why_tests_cant": "all patterns", "anchors": ["src/tespy/components/nodes/separator.py: energy_balance_deriv"]}
{"id": "C73", "title": "Equation registration of merge and fuel cell always works", "statement": "For every pattern of specified fractions and mass flows merge and fuel cell announce as many equations as they return residuals and registration does not raise.", "quantifier": "for every pattern of specifications", "why_tests_cant": "all patterns", "anchors": ["src/tespy/components/nodes/merge.py: get_mandatory_constraints", "src/tespy/components/reactors/fuel_cell.py: get_mandatory_constraints"]}
{"id": "C74", "title": "Solved networks conserve mass and species in electrolyser and separator", "statement": "If all equations of an electrolyser or separator hold and compositions are normalised, mass and every species are conserved, whatever is specified.", "quantifier": "for every pattern of specifications", "why_tests_cant": "all patterns", "anchors": ["src/tespy/components/reactors/water_electrolyzer.py: mass_flow_func", "src/tespy/components/nodes/separator.py: get_mandatory_constraints"]}
{"id": "C75", "title": "Zeta and kA are reported back in every state", "statement": "If the zeta (kA) equation holds, the reported zeta (kA) is the specified one, also for reversed or negligible flow and for crossed temperatures.", "quantifier": "for every state satisfying the equation", "why_tests_cant": "all states", "anchors": ["src/tespy/components/component.py: calc_zeta, zeta_func", "src/tespy/components/heat_exchangers/base.py: calc_parameters"]}
{"id": "C76", "title": "Mean temperature differences of condenser and simple heat exchanger never raise", "statement": "The mean temperature difference in the equations of condenser and simple heat exchanger is defined for every set of port temperatures and every specification pattern.", "quantifier": "for every combination of port temperatures and specified temperatures", "why_tests_cant": "all combinations", "anchors": ["src/tespy/components/heat_exchangers/condenser.py: calculate_td_log", "src/tespy/components/heat_exchangers/simple.py: kA_group_func"]}
{"id": "C77", "title": "Results of heat exchangers can always be computed", "statement": "Computing the results of a heat exchanger or simple heat exchanger after a converged simulation never raises.", "quantifier": "for every state satisfying the equations", "why_tests_cant": "zero differences and crossings of the ambient temperature", "anchors": ["src/tespy/components/heat_exchangers/base.py: calc_parameters", "src/tespy/components/heat_exchangers/simple.py: calc_parameters"]}
{"id": "C78", "title": "The Hazen-Williams loss has the direction of the flow", "statement": "Whenever the Hazen-Williams equation holds the pressure falls in the direction of the flow; a unique outlet pressure exists for either direction.", "quantifier": "for every mass flow of either sign", "why_tests_cant": "all flows", "anchors": ["src/tespy/components/heat_exchangers/simple.py: hazen_williams_func"]}
{"id": "C79", "title": "A calculation does not change a specified bus power", "statement": "If the power of a bus is specified, a simulation leaves the specified value unchanged, also when it stops without convergence.", "quantifier": "for every bus and state", "why_tests_cant": "non-converged calculations are not followed by a comparison", "anchors": ["src/tespy/networks/network.py: process_busses"]}
{"id": "C80", "title": "Efficiency of base 'bus' is evaluated at the bus load", "statement": "If a bus value consistent with the efficiency characteristic exists, the value used for base 'bus' is consistent with it.", "quantifier": "for every characteristic", "why_tests_cant": "shape of the characteristic is arbitrary", "anchors": ["src/tespy/components/component.py: calc_bus_expr", "src/tespy/tools/helpers.py: bus_char_derivative"]}
{"id": "C81", "title": "The bus row is the derivative for every component type and topology", "statement": "For every component with bus functions and every sharing of mass flows the bus row is the derivative of the bus residual.", "quantifier": "for every component type", "why_tests_cant": "topology dependent", "anchors": ["src/tespy/components/reactors/water_electrolyzer.py: bus_deriv", "src/tespy/components/combustion/engine.py: bus_deriv"]}
{"id": "C82", "title": "A network with a bus can be solved again after changing specifications", "statement": "The bus row of a later calculation depends only on the current specification, not on earlier calculations of the same network.", "quantifier": "for every sequence of calculations", "why_tests_cant": "needs particular sequences of runs", "anchors": ["src/tespy/connections/bus.py: Bus.clear_jacobian", "src/tespy/networks/network.py: solve_busses"]}
{"id": "C83", "title": "Every component accepted by a bus can be part of a bus with specified power", "statement": "Whenever add_comps accepts a component, the bus equation can be evaluated.", "quantifier": "for every component type", "why_tests_cant": "all component types", "anchors": ["src/tespy/connections/bus.py: Bus.solve, add_comps"]}
{"id": "C84", "title": "Combustion with too little air conserves elements and mass", "statement": "If the reaction equations hold, elements and total mass are conserved and no product has a negative flow, also for an air ratio below one.", "quantifier": "for every air ratio", "why_tests_cant": "air ratios below one are untested", "anchors": ["src/tespy/components/combustion/base.py: stoichiometry"]}
{"id": "C85", "title": "The energy balance row of combustion covers every unknown it depends on", "statement": "Every unknown the energy balance depends on has an entry in its Jacobian row.", "quantifier": "for every state", "why_tests_cant": "wrong rows only slow convergence", "anchors": ["src/tespy/components/combustion/base.py: energy_balance_func, energy_balance_deriv"]}
{"id": "C86", "title": "Shares of the combustion engine and reported values", "statement": "If the characteristic equations and the energy balance hold, power, both cooling heats and the heat loss are the shares given by the characteristics of the thermal input, and the flue gas takes the rest; the reported values are those of the solution; the diabatic chamber reports the efficiency of the balance and the remaining heat as loss.", "quantifier": "for all characteristics and states", "why_tests_cant": "arbitrary characteristics", "anchors": ["src/tespy/components/combustion/engine.py: tiP_char_func, Q1_char_func, Q2_char_func, Qloss_char_func, energy_balance_func, calc_parameters", "src/tespy/components/combustion/diabatic.py: energy_balance_func, calc_parameters"]}
{"id": "C87", "title": "Fluids accepted by the combustion setup can be used", "statement": "If the setup finds oxygen, carbon dioxide, water and a fuel in the fluid names, the reaction equations do not raise KeyError.", "quantifier": "for every list of fluid names and aliases", "why_tests_cant": "alternative names of fluids", "anchors": ["src/tespy/components/combustion/base.py: setup_reaction_parameters, stoichiometry"]}
{"id": "C88", "title": "Combustion value checks change unknowns only", "statement": "The checks in the first iterations change only unknown mass flows, enthalpies and fractions; if every outlet fraction is unknown they sum to one afterwards.", "quantifier": "for every state and specification pattern", "why_tests_cant": "all patterns", "anchors": ["src/tespy/components/combustion/base.py: convergence_check"]}
{"id": "C89", "title": "Outlet fractions sum to one after the check", "statement": "After the check the outlet fractions sum to one whatever fractions are specified.", "quantifier": "for every specification pattern", "why_tests_cant": "all patterns", "anchors": ["src/tespy/components/combustion/base.py: convergence_check"]}
{"id": "C90", "title": "Combustion value checks never use an unassigned variable", "statement": "The checks do not raise UnboundLocalError whatever connections have good starting values.", "quantifier": "for every state and pattern of good starting values", "why_tests_cant": "needs a connection added between two calculations", "anchors": ["src/tespy/components/combustion/base.py: convergence_check"]}
{"id": "C91", "title": "The thermal input row is exact", "statement": "The row of the thermal input equation contains the exact derivative with respect to every unknown mass flow and mass fraction.", "quantifier": "for every state", "why_tests_cant": "all states", "anchors": ["src/tespy/components/combustion/base.py: ti_func, ti_deriv"]}
{"id": "C92", "title": "Every accepted fuel has a heating value", "statement": "For every accepted fuel the heating value is defined and is the enthalpy of complete combustion to gaseous water per mass; it is positive for every hydrocarbon.", "quantifier": "for every fuel and alias function", "why_tests_cant": "all fuels", "anchors": ["src/tespy/components/combustion/base.py: setup_reaction_parameters, calc_lhv"]}
{"id": "C93", "title": "Destruction in simple heat exchangers", "statement": "The exergy destruction of a one-sided heat exchanger is the exergy supplied minus the exergy leaving, including that of the heat; without pressure loss it is not negative.", "quantifier": "for every fluid, state, heat and value of dissipative", "why_tests_cant": "case distinctions by temperature", "anchors": ["src/tespy/components/heat_exchangers/simple.py: exergy_balance"]}
{"id": "C94", "title": "Destruction is always reported", "statement": "The exergy destruction of turbomachines, valves and merges is a number for every solved state.", "quantifier": "for every state", "why_tests_cant": "boundary cases of the temperatures", "anchors": ["src/tespy/components/turbomachinery/turbine.py: exergy_balance", "src/tespy/components/turbomachinery/compressor.py: exergy_balance", "src/tespy/components/piping/valve.py: exergy_balance", "src/tespy/components/nodes/merge.py: exergy_balance"]}
{"id": "C95", "title": "Destruction in the electrolyser", "statement": "The exergy destruction of an electrolyser whose power equals the gain of chemical exergy and whose cooling water passes unchanged is not negative.", "quantifier": "for every state", "why_tests_cant": "a sign error shows only with warm cooling water", "anchors": ["src/tespy/components/reactors/water_electrolyzer.py: exergy_balance"]}
{"id": "C96", "title": "Entropy production of the combustion engine", "statement": "Reversible heating of the cooling water produces no entropy and mechanical losses produce a nonnegative amount.", "quantifier": "for every state", "why_tests_cant": "sign conventions of heat and power", "anchors": ["src/tespy/components/combustion/engine.py: entropy_balance"]}
{"id": "C97", "title": "Entropy and exergy balances do not raise", "statement": "The exergy balance of a combustion engine and the entropy balance of a combustion chamber return for every solved state.", "quantifier": "for every state", "why_tests_cant": "not exercised by the tests", "anchors": ["src/tespy/components/combustion/engine.py: exergy_balance", "src/tespy/components/combustion/base.py: entropy_balance"]}
{"id": "C98", "title": "Destruction of the groups", "statement": "The destruction of the component groups adds up to the destruction of the network.", "quantifier": "for every network and grouping", "why_tests_cant": "nan is skipped in sums", "anchors": ["src/tespy/tools/analyses.py: create_group_data, analyse"]}
{"id": "C99", "title": "Sources and sinks on busses", "statement": "A source on a fuel bus and a sink on a loss bus can be analysed with either base.", "quantifier": "for every network", "why_tests_cant": "depends on the base of the bus", "anchors": ["src/tespy/tools/analyses.py: evaluate_busses"]}
{"id": "C100", "title": "An open balance is reported", "statement": "Whenever the totals of the network do not close a message is given.", "quantifier": "for every network", "why_tests_cant": "nan compares false", "anchors": ["src/tespy/tools/analyses.py: analyse"]}
{"id": "C101", "title": "Groups may exchange several kinds of streams", "statement": "The analysis returns whatever kinds of streams and bus shares a group delivers to another group or bus.", "quantifier": "for every network and grouping", "why_tests_cant": "needs groups exchanging two fluids", "anchors": ["src/tespy/tools/analyses.py: calculate_group_input_value, create_group_data"]}
{"id": "C102", "title": "Temperature of a mixture from its enthalpy", "statement": "For fluids with constant heat capacities the temperature found from the enthalpy is the temperature the enthalpy was computed with, whatever the start value; the common temperature range lies inside the range of every fluid present.", "quantifier": "for every composition, temperature and start value", "why_tests_cant": "an inverse law over a continuum", "anchors": ["src/tespy/tools/fluid_properties/helpers.py: inverse_temperature_mixture, get_mixture_temperature_range"]}
{"id": "C103", "title": "Temperatures stay in the range of the fluids", "statement": "The temperature found for a mixture does not exceed the upper temperature limit of its fluids.", "quantifier": "for every composition and enthalpy", "why_tests_cant": "needs an enthalpy beyond the range", "anchors": ["src/tespy/tools/fluid_properties/helpers.py: inverse_temperature_mixture"]}
{"id": "C104", "title": "Volume of a condensing mixture", "statement": "The specific volume of a mixture with liquid water is the volume of the liquid plus the volume of the gas.", "quantifier": "for every composition, pressure and temperature", "why_tests_cant": "reference values are computed by the same code", "anchors": ["src/tespy/tools/fluid_properties/mixtures.py: v_mix_pT_ideal_cond"]}
{"id": "C105", "title": "Names of fluids do not matter", "statement": "Using another accepted name for a fluid does not change the enthalpy of the mixture.", "quantifier": "for every composition and every naming", "why_tests_cant": "tests use one name", "anchors": ["src/tespy/tools/fluid_properties/mixtures.py: h_mix_pT_forced_gas"]}
{"id": "C106", "title": "Mixing rules are available throughout", "statement": "A mixing rule that gives an enthalpy also gives temperature, entropy and volume.", "quantifier": "for every mixing rule", "why_tests_cant": "rules are tested by property", "anchors": ["src/tespy/tools/fluid_properties/mixtures.py: tables at the end of the file", "src/tespy/tools/fluid_properties/functions.py"]}
{"id": "C107", "title": "Derivatives leave the composition unchanged", "statement": "After the derivative of the temperature by a mass fraction the composition is the one before the call.", "quantifier": "for every composition, also if the property function raises", "why_tests_cant": "needs an exception inside the derivative", "anchors": ["src/tespy/tools/fluid_properties/functions.py: dT_mix_ph_dfluid"]}
{"id": "C108", "title": "Start values are temperatures", "statement": "Numerical derivatives pass temperatures as start values of temperature iterations.", "quantifier": "for every property function", "why_tests_cant": "the iteration mostly recovers from bad start values", "anchors": ["src/tespy/tools/fluid_properties/functions.py: dT_mix_pdh, dv_mix_pdh"]}
{"id": "C109", "title": "Saturation functions of the wrappers", "statement": "Saturation temperature and pressure of a wrapper are inverse to each other, increase with their argument and are defined for every fluid of the wrapper.", "quantifier": "for every fluid and state", "why_tests_cant": "tested at single states of one library", "anchors": ["src/tespy/tools/fluid_properties/wrappers.py: T_sat, p_sat, _make_p_subcritical"]}
{"id": "C110", "title": "The mass flow specification returns to its connection", "statement": "A mass flow specified at a connection as design parameter is specified at this connection and at no other after an offdesign calculation and a return to design mode.", "quantifier": "for every network and branch", "why_tests_cant": "tests specify the mass flow at the first connection of a branch", "anchors": ["src/tespy/networks/network.py: presolve_massflow_topology, init_design, reset_topology_reduction_specifications"]}
{"id": "C111", "title": "References return after offdesign", "statement": "A property given by reference that is a design parameter is given by the same reference again after an offdesign calculation and a return to design mode.", "quantifier": "for every network", "why_tests_cant": "references with parameter lists are not tested", "anchors": ["src/tespy/networks/network.py: init_design, init_offdesign"]}
{"id": "C112", "title": "Specified values return after offdesign", "statement": "Back in design mode after an offdesign calculation the design parameters have the values the user specified.", "quantifier": "for every network and history", "why_tests_cant": "tests run design, then offdesign", "anchors": ["src/tespy/networks/network.py: initialise, init_set_properties, init_design", "src/tespy/connections/connection.py: calc_results"]}
{"id": "C113", "title": "Design values come from the path given", "statement": "After any sequence of successful calculations of a new network ending with an offdesign calculation, the design value of every property (other than the mass flow) and component parameter is the one stored at the design path of that calculation, or at the object's own design path.", "quantifier": "for every network, every set of tables, every history", "why_tests_cant": "the tables are read only when the code decides so; tests use one path", "anchors": ["src/tespy/networks/network.py: solve, init_offdesign_params", "src/tespy/components/component.py: set_parameters"]}
{"id": "C114", "title": "Design values come from the path given, also after errors and changes", "statement": "The same as C113 for the mass flow, after a refused calculation, after switching a local mode off and for components missing in the tables.", "quantifier": "for every history including errors and set_attr calls", "why_tests_cant": "needs histories with errors", "anchors": ["src/tespy/networks/network.py: solve, init_offdesign_params, presolve_massflow_topology"]}
{"id": "C115", "title": "Local modes take effect", "statement": "A connection or component with local_design is calculated with its design parameters, one with local_offdesign with its offdesign parameters at their design values, and one with neither follows the mode of the calculation.", "quantifier": "for every history of local mode changes", "why_tests_cant": "tests set local modes before the first calculation", "anchors": ["src/tespy/networks/network.py: init_design, init_offdesign"]}
{"id": "C116", "title": "Accepted parameter lists can be used", "statement": "An offdesign calculation does not fail because of a name that was accepted in a parameter list.", "quantifier": "for every accepted list", "why_tests_cant": "lists with references are not tested", "anchors": ["src/tespy/connections/connection.py: set_attr", "src/tespy/networks/network.py: init_offdesign"]}
{"id": "C117", "title": "Local modes select the parameters", "statement": "In a design calculation a connection or component with local_offdesign and its own design path has its offdesign parameters specified, its design parameters not, and design values from its own path (for a component the offdesign parameters have these values); in an offdesign calculation connections and components with local_design keep their specification.", "quantifier": "for every network and state before", "why_tests_cant": "combinations of local modes and lists are unbounded", "anchors": ["src/tespy/networks/network.py: init_design, init_offdesign", "src/tespy/components/component.py: set_parameters"]}
{"id": "C118", "title": "Nothing specified is lost by export and import", "statement": "Also local_offdesign of connections, inactive references, starting values of the composition, the units of vol and Td_bp, iterinfo, printout and reference values of busses, the set flag of grouped characteristics and user defined equations are the same after export and import.", "quantifier": "for every network that can be exported", "why_tests_cant": "tests compare a few values", "anchors": ["src/tespy/networks/network.py: export, _serialize", "src/tespy/networks/network_reader.py: load_network, _construct_components, _construct_connections, _construct_busses", "src/tespy/connections/connection.py: _serialize, _serializable", "src/tespy/connections/bus.py: _serialize", "src/tespy/tools/data_containers.py: _serialize"]}
{"id": "C119", "title": "A loaded network can be specified like the original", "statement": "A specification accepted by a connection of a network is accepted by the same connection of the network loaded from its export.", "quantifier": "for every network and specification", "why_tests_cant": "tests change other specifications after loading", "anchors": ["src/tespy/connections/connection.py: _fluid_specification, _serialize", "src/tespy/networks/network_reader.py: _construct_connections", "src/tespy/tools/data_containers.py: FluidComposition._serialize"]}
{"id": "C120", "title": "Every exported network can be loaded", "statement": "If the export of a network succeeds, loading it from the directory succeeds.", "quantifier": "for every network", "why_tests_cant": "needs unusual labels, classes and characteristics", "anchors": ["src/tespy/networks/network.py: export, _serialize", "src/tespy/networks/network_reader.py: load_network, _construct_components, _construct_connections, _construct_busses", "src/tespy/connections/connection.py: _serialize, _serializable", "src/tespy/connections/bus.py: _serialize", "src/tespy/tools/data_containers.py: _serialize"]}
{"id": "C121", "title": "An export replaces what was in the directory", "statement": "Loading after an export gives the exported network whatever the directory held before, and saving results to the directory does not change what is loaded.", "quantifier": "for every earlier contents of the directory", "why_tests_cant": "tests use fresh directories", "anchors": ["src/tespy/networks/network.py: export, export_components, export_busses, save_busses", "src/tespy/networks/network_reader.py: load_network"]}
{"id": "C122", "title": "Malformed specifications are rejected", "statement": "A set_attr call that returns normally named only known keywords with values of the right type: design and offdesign hold names of properties (of parameters for a component), flags are booleans, the state is l, g or None, dictionaries write only fields the parameter has, characteristics and values are not mixed up; the label of a connection cannot be changed; a design path given to a component is stored and marked for reading.", "quantifier": "for every connection, component and list of keywords", "why_tests_cant": "the set of malformed calls is unbounded; tests try one per branch", "anchors": ["src/tespy/connections/connection.py: set_attr, _fluid_specification, _parameter_specification", "src/tespy/components/component.py: set_attr", "src/tespy/tools/data_containers.py: set_attr"]}
{"id": "C123", "title": "A rejected specification changes nothing", "statement": "If set_attr on a connection raises, the connection is as before the call.", "quantifier": "for every connection and list of keywords", "why_tests_cant": "tests check only that the exception is raised", "anchors": ["src/tespy/connections/connection.py: set_attr, _parameter_specification"]}
{"id": "C124", "title": "A specified temperature or vapour content is accounted for", "statement": "After a calculation a specified temperature or vapour content (whether typed by the user or active as offdesign value) is an equation of the system, or pressure and enthalpy are no unknowns and have it; if it is no equation, the temperature of a pure fluid is reported as entered; per connection as many specifications are presolved as unknowns are removed.", "quantifier": "for every network, unit setting, starting values and solver result; property functions consistent with each other", "why_tests_cant": "combinations of specifications and units are unbounded", "anchors": ["src/tespy/connections/connection.py: preprocess, simplify_specifications", "src/tespy/networks/network.py: init_set_properties, _assign_variable_space"]}
{"id": "C125", "title": "A specified difference to the boiling temperature is accounted for", "statement": "The same for a specified Td_bp: it is an equation of the system, or pressure and enthalpy are no unknowns and have it.", "quantifier": "for every network, unit setting and mode", "why_tests_cant": "tests specify Td_bp in K or degree Celsius in design mode", "anchors": ["src/tespy/connections/connection.py: simplify_specifications"]}
{"id": "C126", "title": "A reference does not displace another specification", "statement": "A specified temperature is accounted for also if a reference of pressure or enthalpy is specified at the same connection.", "quantifier": "for every network", "why_tests_cant": "needs a reference to a presolved property", "anchors": ["src/tespy/networks/network.py: init_properties", "src/tespy/connections/connection.py: simplify_specifications"]}
{"id": "C127", "title": "Specified mass flow, pressure and enthalpy are reported back", "statement": "After a calculation that reads no file of starting values a specified mass flow, pressure or enthalpy has the SI value of what was typed, and value and unit are reported as entered.", "quantifier": "for every network, unit setting and solver result", "why_tests_cant": "values and units are unbounded", "anchors": ["src/tespy/networks/network.py: init_set_properties, init_properties, postprocessing", "src/tespy/connections/connection.py: calc_results"]}
{"id": "C128", "title": "Starting values do not change specifications", "statement": "The same with a file of starting values: reading it changes no specified value, neither in the report nor in the next calculation.", "quantifier": "for every file", "why_tests_cant": "tests read files written with the same units", "anchors": ["src/tespy/networks/network.py: init_conn_params_from_path", "src/tespy/connections/connection.py: calc_results"]}
{"id": "C129", "title": "Starting values are those requested", "statement": "An unknown mass flow, pressure or enthalpy that nothing else determines starts at the value the user gave, converted from the network's unit; without one pressure and enthalpy start at the mean of the proposals of the two components, the only proposal, or 1 bar and 1 MJ/kg; after a successful calculation the next one with the same units starts every such unknown at its previous result.", "quantifier": "for every network, unit setting and proposals", "why_tests_cant": "tests check convergence, not starting values", "anchors": ["src/tespy/networks/network.py: init_properties, init_val0", "src/tespy/connections/connection.py: calc_results"]}
{"id": "C130", "title": "The random mass flow lies between 1 and 2 kg/s", "statement": "A mass flow without starting value starts between 1 and 2 kg/s.", "quantifier": "for every network and unit setting", "why_tests_cant": "random", "anchors": ["src/tespy/networks/network.py: init_val0"]}
{"id": "C131", "title": "A specified phase is the phase of the starting value", "statement": "If the phase or the sign of Td_bp is specified, the enthalpy starts on that side of the saturation line.", "quantifier": "for every network, fluid and starting value", "why_tests_cant": "depends on the reference point of the enthalpy of a fluid", "anchors": ["src/tespy/networks/network.py: init_properties"]}
{"id": "C132", "title": "Reported properties are those of the solution", "statement": "Temperature, specific volume, volumetric flow, entropy, vapour content, phase and difference to the boiling temperature reported after a calculation are those of the solved pressure, enthalpy and mass flow, or nan where they do not exist.", "quantifier": "for every network, history and solver result", "why_tests_cant": "needs repeated calculations that leave the two phase region", "anchors": ["src/tespy/connections/connection.py: calc_results"]}
{"id": "C133", "title": "Overdetermined states are rejected", "statement": "A connection of known composition whose specifications determine its state more than once is rejected.", "quantifier": "for every combination of specifications", "why_tests_cant": "combinations", "anchors": ["src/tespy/connections/connection.py: simplify_specifications"]}
{"id": "C134", "title": "Starting values survive a change of units", "statement": "After a successful calculation the next one starts unknowns at the previous result also if the units of the network were changed in between.", "quantifier": "for every pair of unit settings", "why_tests_cant": "tests set the units once", "anchors": ["src/tespy/networks/network.py: init_properties, init_set_properties"]}
{"id": "C135", "title": "The engine specified for a fluid is used", "statement": "The fluid property engine a user specifies for a fluid on a connection is the one used for that fluid on this connection and on all connections of its branch.", "quantifier": "for every branch and every placement of engines and fractions", "why_tests_cant": "tests give engines on one connection only, together with the fraction", "anchors": ["src/tespy/networks/network.py: propagate_fluid_wrappers", "src/tespy/connections/connection.py: _create_fluid_wrapper"]}
{"id": "C136", "title": "Decision vectors reach the model", "statement": "The decision variables of an optimisation problem are those the user gave bounds for; names, bounds and entries of decision vectors are in the same order, and in every evaluation the model of the user receives each entry at its place.", "quantifier": "for every dictionary of variables, every model and every history of evaluations", "why_tests_cant": "optimisation is not tested at all (pygmo is optional)", "anchors": ["src/tespy/tools/optimization.py: OptimizationProblem.__init__, fitness, get_bounds"]}
{"id": "C137", "title": "Constraints are evaluated with the right sign", "statement": "The fitness vector has one entry per constraint of the user, named in the same order, which is at most zero exactly if the solved model fulfils the constraint.", "quantifier": "for every set of upper and lower limits, numbers or references to other parameters", "why_tests_cant": "as above", "anchors": ["src/tespy/tools/optimization.py: collect_constraints, fitness"]}
{"id": "C138", "title": "Feasible individuals are reported as valid", "statement": "An individual is reported as valid if and only if it fulfils all constraints.", "quantifier": "for every individual", "why_tests_cant": "needs an individual exactly on a limit", "anchors": ["src/tespy/tools/optimization.py: _process_generation_data"]}
{"id": "C139", "title": "An optimisation problem keeps its variables", "statement": "The variables of a problem keep the bounds of the user, and every decision variable has its own name.", "quantifier": "for every evaluation and every choice of labels", "why_tests_cant": "aliasing of a shallow copy; labels with a dash", "anchors": ["src/tespy/tools/optimization.py: OptimizationProblem.__init__, fitness"]}
{"id": "C140", "title": "A run records every individual", "statement": "A run over a number of generations evolves the population one time less than that, returns the last population and records decision and fitness vector of every individual of every generation in its own row.", "quantifier": "for every algorithm, population and number of generations", "why_tests_cant": "as above", "anchors": ["src/tespy/tools/optimization.py: run, _process_generation_data"]}
{"id": "C141", "title": "Sections of moving boundary heat exchangers", "statement": "The exchanger is split where a fluid starts or ends to evaporate or condense: the limits of the sections ascend from zero to the heat transferred, every phase change inside the exchanger is one of them and there are no others; fluid data that differ between the ends of a side raise ValueError.", "quantifier": "for all inlet and outlet states, mass flows and fluids", "why_tests_cant": "tests have three cases of one fluid", "anchors": ["src/tespy/components/heat_exchangers/movingboundary.py: _get_h_steps, _get_Q_sections, _assign_sections"]}
{"id": "C142", "title": "The pinch is at most the difference at the ends and phase changes", "statement": "If heat goes from the hot to the cold side, the reported pinch is the temperature difference at some point of the exchanger and at most the difference at both ends and at every phase change.", "quantifier": "for all inlet and outlet states, mass flows and fluids", "why_tests_cant": "as above", "anchors": ["src/tespy/components/heat_exchangers/movingboundary.py: calc_td_pinch, _get_T_at_steps"]}
{"id": "C143", "title": "The pinch is the smallest temperature difference", "statement": "The reported pinch is the smallest temperature difference between both sides anywhere in the exchanger, for either direction of the heat flow.", "quantifier": "for all fluids and all positions in the exchanger", "why_tests_cant": "tests check the value at the phase change only", "anchors": ["src/tespy/components/heat_exchangers/movingboundary.py: calc_td_pinch"]}
{"id": "C144", "title": "Heat transfer coefficient of moving boundary heat exchangers", "statement": "UA is the sum over the sections of heat by mean logarithmic temperature difference; the heat divided by UA lies between the smallest and the largest difference at the section limits.", "quantifier": "for all inlet and outlet states with the hot side warmer at every limit", "why_tests_cant": "tests compare with one number", "anchors": ["src/tespy/components/heat_exchangers/movingboundary.py: calc_UA, _calc_UA_in_sections"]}
{"id": "C145", "title": "Impossible exchangers have no heat transfer coefficient", "statement": "If the temperatures of both sides cross, no positive UA is reported.", "quantifier": "for all states with a crossing", "why_tests_cant": "no test has a crossing", "anchors": ["src/tespy/components/heat_exchangers/movingboundary.py: _calc_UA_in_sections"]}
{"id": "C146", "title": "Flow through a pipe follows from its pressure loss", "statement": "For every pressure loss of a pipe there is a mass flow, and a larger flow has a larger loss.", "quantifier": "for all dimensions, roughnesses and fluid properties", "why_tests_cant": "tests use one flow per regime", "anchors": ["src/tespy/tools/fluid_properties/helpers.py: darcy_friction_factor, colebrook", "src/tespy/components/heat_exchangers/simple.py: darcy_func"]}
{"id": "C147", "title": "Energy balance of solar collectors", "statement": "Where the equation of a solar collector or parabolic trough holds, the heat is the irradiation absorbed less the thermal losses; the reported losses are the optical and thermal losses and never positive if the collector is not colder than the surroundings.", "quantifier": "for all areas, irradiations, loss factors, states and temperatures", "why_tests_cant": "tests compare single numbers", "anchors": ["src/tespy/components/heat_exchangers/solar_collector.py: energy_group_func, energy_group_deriv, calc_parameters", "src/tespy/components/heat_exchangers/parabolic_trough.py: energy_group_func, calc_parameters"]}
{"id": "C148", "title": "Collectors respond to sun and surroundings", "statement": "With more irradiation a collector yields at least as much heat, and one colder than its surroundings gains heat from them.", "quantifier": "for all parameters within the limits of the component", "why_tests_cant": "limits of parameters are not tested", "anchors": ["src/tespy/components/heat_exchangers/parabolic_trough.py: get_parameters, energy_group_func", "src/tespy/components/heat_exchangers/solar_collector.py: energy_group_func"]}
{"id": "C149", "title": "Efficiency of steam turbines", "statement": "Where the equation of a steam turbine holds, the part of the expansion above the saturation line has the dry efficiency, the part below it the dry efficiency less alpha times the mean wetness; an expansion that ends at saturation satisfies the equations of both cases.", "quantifier": "for all states, efficiencies and fluids", "why_tests_cant": "tests compare one value per case", "anchors": ["src/tespy/components/turbomachinery/steam_turbine.py: eta_s_wet_func", "src/tespy/components/turbomachinery/turbine.py: calc_eta_s"]}
{"id": "C150", "title": "Steam turbines expand any steam", "statement": "Expansion of wet steam never increases the enthalpy, and a dry expansion that has the dry efficiency satisfies the equation.", "quantifier": "for all parameters within the limits and all phases of the fluid library", "why_tests_cant": "tests stay below the critical temperature", "anchors": ["src/tespy/components/turbomachinery/steam_turbine.py: eta_s_wet_func", "src/tespy/tools/fluid_properties/wrappers.py: CoolPropWrapper.phase_ph"]}
{"id": "C151", "title": "User defined equations own their parameters", "statement": "Setting a parameter of one user defined equation leaves the parameters of the others as they are.", "quantifier": "for all equations and parameters", "why_tests_cant": "no test makes two equations without parameters", "anchors": ["src/tespy/tools/helpers.py: UserDefinedEquation.__init__"]}
{"id": "C152", "title": "Numerical derivatives of user defined equations", "statement": "Whatever name its function gives to its parameter, an equation that can be evaluated has a numerical derivative.", "quantifier": "for all functions, variables and values", "why_tests_cant": "tests name the parameter ude", "anchors": ["src/tespy/tools/helpers.py: UserDefinedEquation.numeric_deriv, solve"]}
{"id": "C153", "title": "User defined equations refer to the connections of the network", "statement": "An equation keeps label, connections and parameters passed to it and rejects others with TypeError; at the start of a calculation it refers to the connections of the network with the same labels and has no derivatives; connections the network does not have raise KeyError. The texts shown in the report are the ones passed, with defaults for those left out.", "quantifier": "for all arguments, networks and equations", "why_tests_cant": "tests use connections of the network only", "anchors": ["src/tespy/tools/helpers.py: UserDefinedEquation.__init__", "src/tespy/networks/network.py: solve_determination"]}
{"id": "C52", "title": "Fluid branches follow the fluids", "statement": "In an accepted network without combustion engines there is one fluid branch per connection on which fluid begins, listing each connection it gets to exactly once; merging keeps all connections of a source together, adds none, and joins only connections linked by fluids that meet.", "quantifier": "for all accepted networks and all orders of sets", "why_tests_cant": "tests use networks with few sources", "anchors": ["src/tespy/networks/network.py: create_fluid_wrapper_branches", "src/tespy/components/component.py: propagate_wrapper_to_target and its overrides", "src/tespy/components/basics/source.py: start_fluid_wrapper_branch"]}
{"id": "C154", "title": "Merged fluid branches are disjoint", "statement": "After merging no connection is in two fluid branches.", "quantifier": "for all accepted networks", "why_tests_cant": "needs a source split into two groups of merged sources", "anchors": ["src/tespy/networks/network.py: create_fluid_wrapper_branches"]}
{"id": "C155", "title": "Fluid branches pass combustion engines", "statement": "The fluid branch of a source holds all connections its fluid gets to, through cooling and combustion sides of engines.", "quantifier": "for all accepted networks", "why_tests_cant": "no test feeds two sides of one engine from one source", "anchors": ["src/tespy/components/combustion/engine.py: propagate_wrapper_to_target"]}
{"id": "C156", "title": "Characteristic equations reproduce the design point", "statement": "Expressions of characteristics are values, or ratios to the design values; where the line passes through (1, 1), the equations of turbines, pumps, compressors and heat exchangers with characteristics are those of the design efficiency or kA in the design state, and off design those of the design value times the value of the line; the lines of the package pass through (1, 1).", "quantifier": "for all lines, fluid properties, design values and states", "why_tests_cant": "tests compare a few off-design results with tolerances", "anchors": ["src/tespy/components/component.py: get_char_expr", "src/tespy/components/turbomachinery/turbine.py: eta_s_char_func", "src/tespy/components/turbomachinery/pump.py: eta_s_char_func", "src/tespy/components/heat_exchangers/base.py: kA_char_func", "src/tespy/components/heat_exchangers/simple.py: kA_char_group_func", "src/tespy/data/char_lines.json"]}
{"id": "C157", "title": "Heat transfer off design adds resistances", "statement": "With positive lines the factor on kA is positive, its reciprocal is the mean of the reciprocals of both sides, and it lies between them; with the lines of the package the equation is defined in every state for which the expressions are.", "quantifier": "for all lines and mass flows", "why_tests_cant": "tests do not look at the factor", "anchors": ["src/tespy/components/heat_exchangers/base.py: kA_char_func", "src/tespy/components/heat_exchangers/simple.py: kA_char_group_func", "src/tespy/data/char_lines.json"]}
{"id": "C158", "title": "Unknown characteristic parameters are rejected", "statement": "Every component with a characteristic rejects parameter names it does not know with ValueError.", "quantifier": "for all names and components", "why_tests_cant": "tests use known names", "anchors": ["src/tespy/components/component.py: get_char_expr", "src/tespy/components/turbomachinery/pump.py: flow_char_func"]}
{"id": "C159", "title": "Characteristics of a component at rest", "statement": "A characteristic is evaluated for a mass flow, volume flow or pressure difference of zero like for any other.", "quantifier": "for all states", "why_tests_cant": "tests have nonzero flows", "anchors": ["src/tespy/components/component.py: get_char_expr", "src/tespy/components/turbomachinery/turbine.py: eta_s_char_func", "src/tespy/components/turbomachinery/pump.py: eta_s_char_func", "src/tespy/components/component.py: dp_char_func"]}
{"id": "C160", "title": "Turbines honour the parameters of their characteristic", "statement": "The efficiency of a turbine is evaluated with the expression chosen in char_params, as for pumps.", "quantifier": "for all parameters", "why_tests_cant": "tests use the defaults", "anchors": ["src/tespy/components/turbomachinery/turbine.py: eta_s_char_func"]}
{"id": "C161", "title": "Limits of parameters", "statement": "A check of results reports exactly the parameters whose value lies above the upper or below the lower limit by more than the tolerance, and does not raise an error where no characteristic is used.", "quantifier": "for all components and values", "why_tests_cant": "tests check single parameters", "anchors": ["src/tespy/components/component.py: check_parameter_bounds"]}
{"id": "C162", "title": "Range warnings of characteristics name the range", "statement": "A line evaluated outside its points raises a warning naming its first and last point; inside there is none.", "quantifier": "for all lines and values", "why_tests_cant": "tests do not read messages", "anchors": ["src/tespy/tools/characteristics.py: CharLine.get_domain_errors"]}
{"id": "C163", "title": "Range checks leave compressor maps alone", "statement": "Checking the range of a compressor map changes nothing and warns exactly if the value is outside the map.", "quantifier": "for all maps and values", "why_tests_cant": "tests evaluate each map once after a check", "anchors": ["src/tespy/tools/characteristics.py: CharMap.get_domain_errors_x, get_domain_errors_y"]}
{"id": "C164", "title": "All nonnegative heat transfer characteristics can be evaluated", "statement": "Lines without negative values give a factor for kA at every mass flow.", "quantifier": "for all lines without negative values", "why_tests_cant": "tests use lines without zeros", "anchors": ["src/tespy/components/heat_exchangers/base.py: kA_char_func"]}
{"id": "C165", "title": "Cone law of turbines", "statement": "For expansions the cone law holds exactly for the nonnegative mass flow on the ellipse through the design point, for the design mass flow only in the design state, and lower outlet pressures go with larger mass flows.", "quantifier": "for all designs and states of an expansion", "why_tests_cant": "tests compare single states with tolerances", "anchors": ["src/tespy/components/turbomachinery/turbine.py: cone_func"]}
{"id": "C166", "title": "The cone law holds for expansions only", "statement": "If a positive mass flow satisfies the cone law, the outlet pressure is not above the inlet pressure.", "quantifier": "for all designs and states", "why_tests_cant": "tests have expansions only", "anchors": ["src/tespy/components/turbomachinery/turbine.py: cone_func"]}
{"id": "C167", "title": "The cone law is as documented", "statement": "The residual of the cone law is the one given in documentation and report.", "quantifier": "for all designs and states", "why_tests_cant": "tests do not read documentation", "anchors": ["src/tespy/components/turbomachinery/turbine.py: cone_func, cone_func_doc"]}
{"id": "C168", "title": "Cutting out groups that only pass on exergy changes no flow to a remaining group", "statement": "For tables of flows with unique rows and groups, remove_transit_groups terminates; for every node that remains, category and column (chemical, physical, massless), the sum of the flows to it over all groups is as before; reserved nodes (E_F, E_P, E_L, E_D and busses) stay, no node appears; afterwards no other group is fed by exactly one other group and feeds exactly one, and none has no flows at all; flows still end at nodes.", "quantifier": "for all tables, sets of reserved names and orders of groups", "why_tests_cant": "chains of any length and any order of removal, with rows that meet in one cell", "anchors": ["src/tespy/tools/analyses.py: remove_transit_groups, single_group_input"]}
{"id": "C169", "title": "Links of the Sankey input are exactly the positive flows displayed", "statement": "generate_plotly_sankey_input returns one link for every positive cell of the displayed tables and no other: its source and target are the first positions of the two groups in the order returned, its colour that of the category (the one passed, otherwise the one of the package), and the values add up to the positive flows; an order passed that lacks a displayed group raises ValueError; for every analysis whose categories have colours it returns links, with the order of the package or any that contains all groups.", "quantifier": "for all analyses, orders, colours and thresholds", "why_tests_cant": "tests count the links of one diagram", "anchors": ["src/tespy/tools/analyses.py: generate_plotly_sankey_input, remove_transit_groups, create_group_data, analyse"]}
{"id": "C170", "title": "No flow below the threshold is displayed", "statement": "Every link of the Sankey input has at least the value of the display threshold.", "quantifier": "for all analyses and thresholds", "why_tests_cant": "needs a small part of a large flow", "anchors": ["src/tespy/tools/analyses.py: generate_plotly_sankey_input"]}
{"id": "C171", "title": "Every flow above the threshold is displayed", "statement": "A connection between components of different groups whose exergy is at the threshold or above in size gives a link to the group of its target.", "quantifier": "for all analyses and thresholds", "why_tests_cant": "needs negative exergy of a stream", "anchors": ["src/tespy/tools/analyses.py: generate_plotly_sankey_input"]}
{"id": "C172", "title": "Flows are aggregated unless disaggregation is asked for", "statement": "Without disaggregate_flows there is at most one link from one group to another for a category; with it chemical, physical and massless exergy are separate.", "quantifier": "for all analyses", "why_tests_cant": "tests count the links of one diagram only", "anchors": ["src/tespy/tools/analyses.py: generate_plotly_sankey_input"]}
{"id": "C173", "title": "No group is linked to itself", "statement": "No link of the Sankey input has the same source and target.", "quantifier": "for all analyses", "why_tests_cant": "needs a closed circuit of two groups", "anchors": ["src/tespy/tools/analyses.py: remove_transit_groups, generate_plotly_sankey_input"]}
{"id": "C174", "title": "A solved equation of a specified value means that the specified relation holds", "statement": "If the residual of an equation of a specified parameter is zero, the parameter has its documented meaning: pr is outlet over inlet pressure, dp the pressure lost; eta_s of pumps and turbines isentropic over actual change of enthalpy or its inverse; compressor maps, valve characteristics; a reference is factor times the other value plus difference; v is mass flow times specific volume; x and saturation temperatures give the enthalpy; kA, eff_cold and eff_hot; eta and e of fuel cells and electrolyzers; fractions add up to one.", "quantifier": "for all states, property functions and parameter values (where denominators are not zero)", "why_tests_cant": "a residual scaled or offset still vanishes for the values a test compares it with; tests do not compare the solution of every equation with the definition of the parameter", "anchors": ["src/tespy/components/component.py: pr_func, dp_func", "src/tespy/components/turbomachinery/pump.py: eta_s_func", "src/tespy/components/turbomachinery/turbine.py: eta_s_func", "src/tespy/connections/connection.py: primary_ref_func, T_ref_func, v_func, v_ref_func, x_func, Td_bp_func", "src/tespy/components/heat_exchangers/base.py: kA_func, eff_cold_func, eff_hot_func", "src/tespy/components/reactors"]}
{"id": "C175", "title": "Nodes of busses in the Sankey tables balance and add up to the results of the network", "statement": "In the tables of an exergy analysis, for every bus of fuel, product and loss and every column (chemical, physical, massless), what flows into the node of the bus equals what leaves it, provided the network total of that role is a number; the rows E_F of all fuel busses add up to E_F of the network, those of the products to E_P and those of the losses to E_L.", "quantifier": "for all analyses with distinct bus labels, all efficiencies, bases and numbers of components", "why_tests_cant": "sums over any number of components on any number of busses", "anchors": ["src/tespy/tools/analyses.py: create_group_data, evaluate_busses, calculate_group_input_value"]}
{"id": "C176", "title": "The flow between two groups is the sum of the exergies of the connections between them", "statement": "In the tables of an exergy analysis, for two different groups of components and every category of fluids, there is a row exactly if a connection of that category leads from a component of the one to one of the other; chemical and physical share are the sums of those of these connections, the massless share is zero.", "quantifier": "for all analyses, groups and networks with distinct component labels", "why_tests_cant": "any number of connections in any order that meet in one row", "anchors": ["src/tespy/tools/analyses.py: create_group_data"]}
{"id": "C177", "title": "Components propose the starting values of their documentation", "statement": "For a connection whose pressure or enthalpy is unknown and has no value yet, the starting value is the mean of the values documented for the component at its source and at its target, the one of them that is given, or 1 bar and 1 MJ/kg; enthalpies are evaluated at the starting pressure. This holds for every component class apart from the outlets of turbomachines, heat exchangers and the documentation of separators (C178); outlets of droplet separators and drums start as saturated liquid and saturated gas.", "quantifier": "for all component classes, ports, fluids, unit systems and specified heat flows", "why_tests_cant": "starting values are invisible in a converged result; a test notices them only if the solver fails", "anchors": ["src/tespy/components/component.py: initialise_source, initialise_target", "src/tespy/networks/network.py: init_val0", "src/tespy/components/nodes/base.py: initialise_source", "src/tespy/components/heat_exchangers/simple.py: initialise_source, initialise_target", "src/tespy/components/combustion/base.py: initialise_source", "src/tespy/components/reactors/fuel_cell.py: initialise_source"]}
{"id": "C178", "title": "All components propose their documented starting values", "statement": "The starting values documented for the outlets of pumps, compressors and turbines, for the ports of heat exchangers and for the outlets of droplet separators are the ones used.", "quantifier": "for all these classes and ports", "why_tests_cant": "a misspelt method name raises no error: the inherited method is called instead", "anchors": ["src/tespy/components/turbomachinery/pump.py: initialise_Source", "src/tespy/components/turbomachinery/compressor.py: initialise_Source", "src/tespy/components/turbomachinery/turbine.py: initialise_Source", "src/tespy/components/heat_exchangers/base.py: initialise_source, initialise_target", "src/tespy/components/nodes/droplet_separator.py: initialise_source"]}
{"id": "C179", "title": "Adding subsystems adds their connections and components", "statement": "After add_subsys returned, the network holds the connections it held before and those of the subsystems, under distinct labels, its component table lists exactly the ends of its connections, and the table of connections is the one add_conns builds from the same connections.", "quantifier": "for all networks reached by adding, removing and checking, all subsystems and any iteration order of sets", "why_tests_cant": "any number of subsystems with any number of connections sharing components", "anchors": ["src/tespy/networks/network.py: add_subsys, add_conns", "src/tespy/components/subsystem.py: __init__"]}
{"id": "C180", "title": "Labels that are accepted", "statement": "A component is created exactly if its label is a string without semicolon, comma and dot; a subsystem exactly if its label is a string without semicolon, dot and comma followed by a blank. The default label of a connection determines both of its ends if the labels of components contain no colon and the outlet names no underscore, so that default labels are unique where every outlet is used once. A connection takes every string as label, and a label made of its ends if none is given; other objects raise TypeError.", "quantifier": "for all labels and port names", "why_tests_cant": "all strings", "anchors": ["src/tespy/components/component.py: __init__", "src/tespy/components/subsystem.py: __init__", "src/tespy/connections/connection.py: __init__"]}
{"id": "C181", "title": "Labels of subsystems and default labels never lead to rejected parts", "statement": "Every accepted label of a subsystem can be used as beginning of the labels of its components, and connections with different ends have different default labels.", "quantifier": "for all accepted labels", "why_tests_cant": "labels with commas or colons at unfortunate places", "anchors": ["src/tespy/components/subsystem.py: __init__", "src/tespy/connections/connection.py: __init__"]}
{"id": "C182", "title": "One mass flow per branch", "statement": "After a successful calculation every connection has its own mass flow container again, and all connections of a mass flow branch report the same mass flow, in SI and in the unit of the network. If the mass flow is specified at one of them and is in no parameter list of the branch, it is the specified value converted to SI, the specification stays at that connection, and after an offdesign calculation that read the design point its design value is the one of the tables; otherwise it is a value found by the solver. This holds after any sequence of calculations.", "quantifier": "for all networks with disjoint branches, all histories of calculations, units, tables and solver results", "why_tests_cant": "containers are shared during the calculation and restored afterwards; branches and histories are unbounded", "anchors": ["src/tespy/networks/network.py: presolve_massflow_topology, reset_topology_reduction_specifications, init_set_properties, init_conn_design_params, init_offdesign, init_design, solve", "src/tespy/connections/connection.py: calc_results"]}
{"id": "C183", "title": "Checked files", "statement": "Whatever a directory contains, load_network either raises or returns a network in which every component stems from a file of a registered class and has only known parameters, parameter lists name existing parameters, flags are truth values, every connection joins two different components of the network at existing connectors, references point to connections of the network, and rows of busses have a known base and a line with as many abscissae as ordinates. Whatever a network contains, export either raises or writes json trees with one entry for each connection.", "quantifier": "for all contents of the files and all networks", "why_tests_cant": "arbitrary trees in the files", "anchors": ["src/tespy/networks/network_reader.py: load_network, _construct_components, _construct_connections, _construct_busses", "src/tespy/networks/network.py: export, export_connections, export_components, export_busses"]}
{"id": "C184", "title": "Chemical exergy of a single fluid", "statement": "The specific chemical exergy of a connection with one fluid is the table value of the fluid in its state of reference divided by its molar mass, independent of ambient state and mixing rule; the exergy flow is mass flow times specific value; without a table both are zero.", "quantifier": "for all tables, fluids, molar masses, aliases and mass flows", "why_tests_cant": "all rows of a table under all names of a fluid", "anchors": ["src/tespy/tools/fluid_properties/functions.py: calc_chemical_exergy", "src/tespy/connections/connection.py: get_chemical_exergy"]}
{"id": "C185", "title": "Chemical exergy of a mixture", "statement": "With the rule ideal-cond the molar chemical exergy of a mixture is, if nothing condenses at ambient conditions, the sum of fraction times (value of the gas plus R T0 times logarithm of the fraction), and otherwise the liquid water times the value of the liquid plus the gas times that sum over the composition of the gas; it is at most the exergy of the unmixed gases. A value is returned only if the table has a value of the gas for every fluid of the mixture, and only for this rule.", "quantifier": "for all compositions, tables and ambient states", "why_tests_cant": "any number of fluids; condensation depends on composition and ambient state", "anchors": ["src/tespy/tools/fluid_properties/mixtures.py: exergy_chemical_ideal_cond, cond_check", "src/tespy/tools/fluid_properties/functions.py: calc_chemical_exergy"]}
{"id": "C186", "title": "Every fluid with a value in a table of the library has a chemical exergy", "statement": "If the table delivered with the library lists a fluid with a value, the chemical exergy of a connection with that fluid can be calculated.", "quantifier": "for all rows of the delivered tables", "why_tests_cant": "tests use few of the fluids of the tables", "anchors": ["src/tespy/tools/fluid_properties/functions.py: calc_chemical_exergy", "src/tespy/data/ChemEx"]}
{"id": "C187", "title": "Fractions below the precision do not influence the chemical exergy", "statement": "A fluid whose mass fraction is smaller than the precision in absolute value is treated as absent, as in the other properties of mixtures.", "quantifier": "for all compositions", "why_tests_cant": "needs a composition with a tiny remainder of a fluid", "anchors": ["src/tespy/tools/fluid_properties/mixtures.py: exergy_chemical_ideal_cond"]}
{"id": "C188", "title": "Properties from the enthalpy agree with those from the temperature", "statement": "For mixtures of fluids with constant heat capacities and the rules ideal and incompressible, temperature, entropy, specific volume and viscosity calculated from pressure and enthalpy equal those calculated from pressure and temperature; the isentropic outlet enthalpy is the enthalpy at the outlet pressure and inlet entropy (entropies linear in the temperature). For a single fluid the same holds if the property library agrees with itself, and the volume is the inverse of the density.", "quantifier": "for all compositions, pressures, temperatures in range and start values", "why_tests_cant": "all start values of the iteration", "anchors": ["src/tespy/tools/fluid_properties/functions.py: T_mix_ph, s_mix_ph, v_mix_ph, viscosity_mix_ph, T_mix_ps, isentropic"]}
{"id": "C189", "title": "Jacobian rows match their equations", "statement": "For each component and connection equation with numerical or mixed derivatives - pressure losses, terminal temperature differences, effectiveness, heat transfer and its characteristics, collectors, moving boundary sections, efficiencies, compressor maps, cone law, wet expansion, reactors, combustion, cooling loops, temperature, volumetric flow - every unknown mass flow, pressure, enthalpy and component variable declared for the equation, unless skipped by the increment filter, has an entry that is the partial derivative or the symmetric difference quotient of the residual with the step of the solver, or the residual does not depend on it; nothing is written for specified quantities. The rows of stoichiometry, air ratio, engine characteristics and temperature also cover every unknown mass fraction not closer than one step to zero or one.", "quantifier": "for all property functions, characteristics, values, numbers of ports and fluids, patterns of unknowns and of skipped unknowns", "why_tests_cant": "a missing or wrong entry only slows or breaks convergence for some patterns of specifications", "anchors": ["src/tespy/components/component.py: numeric_deriv, zeta_deriv", "src/tespy/components/heat_exchangers/base.py: kA_deriv, ttd_u_deriv, eff_max_deriv", "src/tespy/components/heat_exchangers/simple.py: darcy_deriv, kA_group_deriv", "src/tespy/components/turbomachinery/turbine.py: eta_s_deriv, cone_deriv", "src/tespy/components/turbomachinery/compressor.py: char_map_pr_deriv", "src/tespy/components/combustion/base.py: stoichiometry_deriv, lambda_deriv, energy_balance_deriv", "src/tespy/components/combustion/engine.py: energy_balance_deriv, Q1_char_deriv", "src/tespy/connections/connection.py: T_deriv, v_deriv, Td_bp_deriv"]}
{"id": "C190", "title": "Jacobian rows cover unknown compositions", "statement": "If the composition of a stream is unknown, the rows of temperature differences, pressure losses, efficiencies and volumetric flow have entries for the mass fractions the residual depends on.", "quantifier": "for all property functions and unknowns", "why_tests_cant": "needs a variable composition together with these specifications", "anchors": ["src/tespy/components/heat_exchangers/base.py: ttd_u_deriv", "src/tespy/components/component.py: zeta_deriv", "src/tespy/components/turbomachinery/pump.py: eta_s_deriv", "src/tespy/connections/connection.py: v_deriv"]}
{"id": "C191", "title": "Rows of characteristics are right for every parameter of the characteristic", "statement": "Whichever quantity (mass flow, volumetric flow, pressure ratio) the user selects as argument of a characteristic, the Jacobian row of the equation is complete and right.", "quantifier": "for all characteristics and arguments", "why_tests_cant": "the default argument is tested only", "anchors": ["src/tespy/components/piping/valve.py: dp_char_deriv", "src/tespy/components/reactors/water_electrolyzer.py: eta_char_deriv", "src/tespy/components/component.py: get_char_expr"]}
{"id": "C192", "title": "Fuel fractions in the energy balance of the engine", "statement": "The entries of the energy balance of the combustion engine for unknown fuel fractions are the partial derivatives of the residual.", "quantifier": "for all fuels, heating values and property functions", "why_tests_cant": "needs unknown fuel composition", "anchors": ["src/tespy/components/combustion/engine.py: energy_balance_deriv"]}
{"id": "C193", "title": "A solved plant conserves mass", "statement": "In every network whose mandatory equations hold, the mass flow supplied by all sources minus the mass flow received by all sinks equals the mass lost at the cycle closers. Without cycle closers both are equal, in general the difference is at most the number of cycle closers times the largest deviation they report, and with one cycle closer the reported deviation is the difference.", "quantifier": "for all networks of any size made of sources, sinks, turbomachines, pipes, valves, heat exchangers, nodes, drums, combustion chambers, engines, fuel cells and electrolysers, for all states", "why_tests_cant": "tests balance single example networks", "anchors": ["src/tespy/networks/network.py: Network.solve_components", "src/tespy/components/nodes/*.py", "src/tespy/components/basics/cycle_closer.py: calc_parameters", "src/tespy/components/reactors/*.py", "src/tespy/components/combustion/*.py"]}
{"id": "C194", "title": "A solved plant conserves energy", "statement": "In every network whose mandatory equations hold, the enthalpy flow into the sinks minus that out of the sources is the sum of the heat and power reported by the one-stream components, the heat released in combustion chambers and engines, and the electricity of electrolysers less the enthalpy of reaction, corrected by the mass lost at cycle closers. In a cycle without sources and sinks these contributions add up to zero and the closer reports no deviation.", "quantifier": "for all networks of any size (without fuel cells, see C198; separators for ideal mixtures) and all states", "why_tests_cant": "tests balance single example networks", "anchors": ["src/tespy/components/turbomachinery/base.py: calc_parameters", "src/tespy/components/heat_exchangers/*.py", "src/tespy/components/nodes/*.py", "src/tespy/components/combustion/*.py", "src/tespy/components/reactors/water_electrolyzer.py"]}
{"id": "C195", "title": "A solved plant conserves every fluid", "statement": "In every network without reactions whose mandatory equations hold, each fluid leaves through the sinks as it enters through the sources, corrected by what changes at cycle closers.", "quantifier": "for all networks of any size, all fluids (balanced at merges, at separators balanced or the only one left over), drums fed with one composition", "why_tests_cant": "tests use few mixtures", "anchors": ["src/tespy/components/nodes/merge.py: fluid_func", "src/tespy/components/nodes/separator.py: fluid_func", "src/tespy/networks/network.py: Network.propagate_fluid_branches"]}
{"id": "C196", "title": "A solved plant with a cycle closer conserves mass", "statement": "If the equations of a network with a cycle closer hold, the sinks receive the mass flow the sources supply.", "quantifier": "for all networks with a cycle closer", "why_tests_cant": "example networks are closed at the right place", "anchors": ["src/tespy/components/basics/cycle_closer.py: get_mandatory_constraints"]}
{"id": "C197", "title": "A drum balances the fluids of its inlets", "statement": "If the equations of a drum hold, the flow of each fluid entering at both inlets equals the flow leaving.", "quantifier": "for all compositions of the inlets", "why_tests_cant": "drums are tested with pure water", "anchors": ["src/tespy/components/nodes/drum.py: get_mandatory_constraints"]}
{"id": "C198", "title": "A fuel cell gives off no more than the reaction energy", "statement": "If the equations of a fuel cell hold and the gases and the product water are at reference state, the heat taken by the cooling water plus the power given off equal the reaction energy of the hydrogen; the power is negative as its limits and its documentation say.", "quantifier": "for all mass flows, powers and efficiencies", "why_tests_cant": "the documented example asserts the wrong heat flow (642 kW with 200 kW of power out of 444 kW)", "anchors": ["src/tespy/components/reactors/fuel_cell.py: energy_balance_func, calc_P, get_parameters"]}
{"id": "C199", "title": "Deviation of the composition at a cycle closer", "statement": "The fluid deviation reported by a cycle closer is never negative, is zero exactly if the mass fractions of all fluids of the inlet agree with those of the outlet, exists exactly if the outlet has all fluids of the inlet, and if it is zero fluids that only the outlet has are absent. Otherwise the calculation of the report raises KeyError.", "quantifier": "for all compositions", "why_tests_cant": "only one value is tested", "anchors": ["src/tespy/components/basics/cycle_closer.py: calc_parameters"]}
{"id": "C200", "title": "Solved equations with temperatures, volumes and characteristics mean the documented relation", "statement": "If the residual is zero, the documented relation holds: zeta, Darcy-Weisbach and Hazen-Williams give the loss of pressure; kA times the logarithmic mean of the terminal differences is the heat, also with characteristics and against ambient temperature; terminal differences and effectiveness; gains and losses of collectors; isentropic efficiencies with characteristics and maps; cone law as ratio of flow coefficients; heat of reactors; air to fuel ratio as oxygen supplied over needed; power, heat and losses of engines from the thermal input; temperature, superheating and volumetric flow of connections. Conversely the relation makes the residual zero.", "quantifier": "for all states, property functions, characteristics and parameter values (temperatures not crossed, denominators not zero)", "why_tests_cant": "a residual scaled or offset still vanishes where a test compares it with itself; tests only cover few points", "anchors": ["src/tespy/components/component.py: zeta_func", "src/tespy/components/heat_exchangers/base.py: kA_func, kA_char_func, ttd_u_func, eff_cold_func", "src/tespy/components/heat_exchangers/simple.py: darcy_func, hazen_williams_func, kA_group_func", "src/tespy/components/turbomachinery/*.py", "src/tespy/components/combustion/*.py", "src/tespy/connections/connection.py: T_func, Td_bp_func, v_func"]}
{"id": "C201", "title": "Reported progress", "statement": "For every norm of the residuals the progress reported in an iteration lies between 0 and 100, is 100 exactly if the norm is within the tolerance of the convergence check, does not decrease when the norm decreases, and is 0 for norms of a million and more.", "quantifier": "for all real norms", "why_tests_cant": "tests do not look at the progress", "anchors": ["src/tespy/networks/network.py: Network.iterinfo_body"]}
{"id": "C202", "title": "Progress is a percentage", "statement": "Every progress value handed to the logger lies between 0 and 100.", "quantifier": "for all norms, also nan", "why_tests_cant": "the logger is not tested with failing calculations", "anchors": ["src/tespy/networks/network.py: Network.iterinfo_body", "src/tespy/tools/logger.py: progress"]}
{"id": "C203", "title": "Printed results are complete and hide what is hidden", "statement": "Printing a solved network succeeds. A component or connection is in the tables exactly if its printout flag is set, with all its results; busses with all components and the sums of their values. With colours, exactly the values outside of their limits are marked as errors, variables and specified values by their own colours.", "quantifier": "for all networks, results, flags, limits and colours", "why_tests_cant": "tests only call the function and do not look at the output", "anchors": ["src/tespy/networks/network.py: Network.print_results", "src/tespy/networks/network.py: Network.print_components"]}
{"id": "C204", "title": "Printing a network that has never been solved", "statement": "raises TESPyNetworkError, as the message in the function announces.", "quantifier": "for all networks without results", "why_tests_cant": "no test prints an unsolved network", "anchors": ["src/tespy/networks/network.py: Network.print_results"]}
{"id": "C205", "title": "Every component of a bus is printed", "statement": "The table of a bus lists the values of each of its components.", "quantifier": "for all labels of components", "why_tests_cant": "no test uses that label", "anchors": ["src/tespy/networks/network.py: Network.print_results"]}
{"id": "C206", "title": "Entropy balances obey the second law", "statement": "For fluids with T ds = dh - v dp: the entropy reported for heat and for irreversibility add up to the change of entropy of the stream; pressure losses produce entropy and none is produced without; the entropy of heat has the sign of the heat and the mean temperature lies between those of inlet and outlet; heat exchangers produce entropy if heat flows to the lower mean temperature; valves always, turbomachines exactly if the outlet enthalpy is not below the isentropic one.", "quantifier": "for all fluids given by entropy, temperature and volume functions, all states and mass flows", "why_tests_cant": "tests check that balances add up for one state of one fluid", "anchors": ["src/tespy/components/heat_exchangers/simple.py: entropy_balance", "src/tespy/components/heat_exchangers/base.py: entropy_balance", "src/tespy/components/turbomachinery/base.py: entropy_balance", "src/tespy/components/piping/valve.py: entropy_balance"]}
{"id": "C207", "title": "Entropy balances are defined for every solved state", "statement": "The entropy balance of simple heat exchangers, pipes and heat exchangers returns for every state with positive pressures.", "quantifier": "for all states", "why_tests_cant": "no test balances an adiabatic pipe", "anchors": ["src/tespy/components/heat_exchangers/simple.py: entropy_balance", "src/tespy/components/heat_exchangers/base.py: entropy_balance"]}
{"id": "C208", "title": "Property values do not depend on earlier questions", "statement": "The answer of a CoolProp fluid to a question for a property depends only on the arguments, not on which properties were asked before, in which order, or whether earlier questions raised.", "quantifier": "for all sequences of calls and all libraries", "why_tests_cant": "tests cannot try all sequences on the shared state object", "anchors": ["src/tespy/tools/fluid_properties/wrappers.py: CoolPropWrapper"]}
{"id": "C209", "title": "The water engine answers like CoolProp", "statement": "If iapws and CoolProp describe the same fluid, each in its own units, the two engines of TESPy return the same numbers in SI units, the same phases and the same exceptions, for all properties but the saturation pressure.", "quantifier": "for all libraries, all arguments and all methods", "why_tests_cant": "tests compare the engines at a few states", "anchors": ["src/tespy/tools/fluid_properties/wrappers.py: IAPWSWrapper", "src/tespy/tools/fluid_properties/wrappers.py: CoolPropWrapper"]}
{"id": "C210", "title": "The water engine answers like CoolProp also for the saturation pressure and other phases", "statement": "The two engines agree on the saturation pressure and on the phase and vapour fraction of states which are neither liquid nor gas nor two-phase.", "quantifier": "for all libraries and states", "why_tests_cant": "no test asks iapws for them", "anchors": ["src/tespy/tools/fluid_properties/wrappers.py: IAPWSWrapper.p_sat, phase_ph, Q_ph"]}
{"id": "C211", "title": "Properties an engine cannot provide", "statement": "Asking a pyromat fluid for a property it cannot provide raises NotImplementedError, connections report nan for it, and specifying it on a connection raises.", "quantifier": "for all fluids and states", "why_tests_cant": "pyromat is tested for one fluid and the properties it has", "anchors": ["src/tespy/tools/fluid_properties/wrappers.py: PyromatWrapper", "src/tespy/connections/connection.py: x_func, Td_bp_func, calc_results"]}
{"id": "C212", "title": "Names of fluids", "statement": "The name of a fluid without brackets is handed to the library unchanged; of one with a fraction in brackets name and fraction are separated; names with several fractions are rejected. The engine for water accepts exactly the names of water and its two formulations. The IAPWS wrapper rejects other names than those of water with ValueError and other formulations with NotImplementedError.", "quantifier": "for all names", "why_tests_cant": "tests use a few names", "anchors": ["src/tespy/tools/fluid_properties/wrappers.py: FluidPropertyWrapper, IAPWSWrapper"]}
{"id": "C213", "title": "Volumetric flow of mixtures", "statement": "A volumetric flow can be specified on every connection for which the specific volume can be calculated.", "quantifier": "for all fluids and states", "why_tests_cant": "tests specify volumetric flows of pure fluids", "anchors": ["src/tespy/connections/connection.py: v_func, v_deriv", "src/tespy/tools/fluid_properties/functions.py: dv_mix_dph, dv_mix_pdh"]}
{"id": "C214", "title": "Figures of the report", "statement": "place_figures puts every figure into the report exactly once and in the given order, two in each row but the last, each in its own environment.", "quantifier": "for all lists of figures", "why_tests_cant": "the report is compiled by no test and the tests do not count figures", "anchors": ["src/tespy/tools/document_models.py: place_figures"]}
{"id": "C215", "title": "Inputs and results in the report", "statement": "Every specified value of a connection and every specified parameter or variable of a component with an equation text is in the table of the report, whichever columns are selected; with results exactly specified values are bold and exactly variables italic; without results the tables show specified values only; equations are listed exactly for the columns with a specified value. Specified means marked in the tables of specifications, see C272 and C273.", "quantifier": "for all result tables, specifications and settings of the report", "why_tests_cant": "tests only check that a report can be written for a few settings", "anchors": ["src/tespy/tools/document_models.py: document_connections, document_connection_params, get_component_specifications, data_to_df"]}
{"id": "C216", "title": "A report can be written for networks with referenced properties", "statement": "A report can be written for every network, also if mass flow, pressure, enthalpy, temperature or volumetric flow of a connection refer to another connection.", "quantifier": "for all connections and references", "why_tests_cant": "the tests document networks without references", "anchors": ["src/tespy/tools/document_models.py: document_connections", "src/tespy/tools/data_containers.py: ReferencedFluidProperties"]}
{"id": "C217", "title": "Figures of the report are stored in its folder", "statement": "Generated figures are stored at path/figures/, where the report looks for them, for every path.", "quantifier": "for all paths and all kinds of characteristics", "why_tests_cant": "tests pass paths and do not look for the files of every kind", "anchors": ["src/tespy/tools/document_models.py: document_model, document_ude, get_component_mandatory_constraints, document_busses, create_latex_CharLine, create_latex_CharMap"]}
{"id": "C218", "title": "Selection of parameters in the report", "statement": "If a selection of parameters is given for a component class, the table of its components has the selected parameters and those specified, and no others.", "quantifier": "for all selections and specifications", "why_tests_cant": "tests do not read the tables", "anchors": ["src/tespy/tools/document_models.py: get_component_specifications"]}
{"id": "C219", "title": "Rows of busses cover heat input, power and heat loss", "statement": "For a bus with any combustion chambers, combustion engines, water electrolyzers and stream components, each unknown of the network either has the difference quotient of the bus residual as entry in the row of the bus or the residual does not depend on it; only unknowns have entries. The value of a component on the bus is the power or heat determined by the component's own equations.", "quantifier": "for all components on a bus, all bus characteristics and all sets of unknowns", "why_tests_cant": "tests compare a few rows at one operating point", "anchors": ["src/tespy/components/component.py: bus_deriv, calc_bus_value", "src/tespy/components/combustion/base.py: bus_deriv", "src/tespy/components/combustion/engine.py: bus_deriv", "src/tespy/components/reactors/water_electrolyzer.py: bus_deriv"]}
{"id": "C220", "title": "Plotting data connect the states of a component", "statement": "Every line in the plotting data of a component starts at the state of one of its inlets and ends at the state of one of its outlets, each fixed by two different properties; every inlet starts and every outlet ends a line; the entries are numbered from 1 like the connections; only entry 1 of a drum connects its two outlets. The lines of valves and nodes are isolines whenever enthalpy respectively pressure are equal. Exactly the heat exchangers, pipes, collectors, drums, droplet separators, merges, valves and turbomachines have plotting data.", "quantifier": "for all component classes, numbers of inlets and states", "why_tests_cant": "tests look at single values of few classes", "anchors": ["src/tespy/components: get_plotting_data"]}
{"id": "C221", "title": "Messages arrive once and name their caller", "statement": "A message arrives exactly once at every handler whose level it reaches and at no other one, with the level of the function called, its text and arguments unchanged, attributed to the code that called the function (or the requested frame above it), whichever shorthand function is used. progress adds value and limits, 0 and 100 by default.", "quantifier": "for all call stacks, handlers, messages and keyword arguments", "why_tests_cant": "tests use one handler and do not look at the place a message is attributed to", "anchors": ["src/tespy/tools/logger.py: log, debug, info, warning, error, exception, critical, progress, result, increment_stacklevel"]}
{"id": "C222", "title": "Limits of the progress", "statement": "Every report of progress has both limits, also if the caller gives only one of them, and the dictionary of the caller is not changed.", "quantifier": "for all keyword arguments of progress", "why_tests_cant": "tests give both limits or none", "anchors": ["src/tespy/tools/logger.py: progress"]}
{"id": "C223", "title": "Warnings keep category and place", "statement": "Warnings issued through the warnings module are logged with their category and the file they come from.", "quantifier": "for all warnings of the process", "why_tests_cant": "tests issue future warnings only", "anchors": ["src/tespy/tools/logger.py: FutureWarningHandler"]}
{"id": "C224", "title": "Set-up of logging", "statement": "define_logging adds one handler for the screen and one for the log file with the levels, formats and rotation options asked for (documented defaults otherwise), returns the path of the log file below the given or the default directory, which exists afterwards, and announces path and version on request, and nothing else; earlier handlers are kept. The version is commit and branch in a working copy and the version number otherwise. Without arguments the screen shows information and more, the file tespy.log below the home directory everything, and both get the path and the version.", "quantifier": "for all settings, states of the logger, directories and working copies", "why_tests_cant": "tests check the ending of the path for one set of arguments", "anchors": ["src/tespy/tools/logger.py: define_logging, add_console_logging, add_file_logging, get_version, check_git_branch", "src/tespy/tools/helpers.py: get_basic_path, extend_basic_path"]}
{"id": "C225", "title": "Set-up of logging has no surprises", "statement": "With defaults dates on the screen have the documented format, repeating the set-up does not repeat messages, no directory is created in the home directory if another one is given, and the set-up succeeds in every installation.", "quantifier": "for all settings and installations", "why_tests_cant": "the test suite runs in one working copy", "anchors": ["src/tespy/tools/logger.py: define_logging, add_console_logging, add_file_logging, get_version"]}
{"id": "C226", "title": "Every characteristic line is available", "statement": "After the preparation of a component every characteristic line has a function: the one given by the user, which is never replaced, else the default of its class and parameter, else one that is 1 everywhere. Custom characteristics are those of the file of the user; a missing file and an unknown name are reported.", "quantifier": "for all data files, components and parameters", "why_tests_cant": "tests use a few components with defaults", "anchors": ["src/tespy/components/component.py: preprocess", "src/tespy/tools/characteristics.py: load_default_char, load_custom_char"]}
{"id": "C227", "title": "Characteristics of maps and derived classes", "statement": "Characteristic maps without default can be evaluated, and classes derived from another one without changing its characteristics use the same defaults.", "quantifier": "for all classes and parameters", "why_tests_cant": "tests use classes with defaults only", "anchors": ["src/tespy/components/component.py: preprocess", "src/tespy/data/char_lines.json"]}
{"id": "C228", "title": "Convergence checks reach feasible values", "statement": "After the convergence check the pressure does not fall over a compressor if one of its pressures can be changed, nor over a pump if its inlet pressure can be changed, and falls over a turbine if its outlet pressure can be changed; the same holds for positive enthalpies. Feasible values are left alone. The volume flow of a pump with flow characteristic ends up in the range of the characteristic.", "quantifier": "for all values, unknowns and characteristics", "why_tests_cant": "tests observe converged results, not the corrections on the way", "anchors": ["src/tespy/components/turbomachinery/compressor.py: convergence_check", "src/tespy/components/turbomachinery/turbine.py: convergence_check", "src/tespy/components/turbomachinery/pump.py: convergence_check"]}
{"id": "C229", "title": "Convergence checks without exceptions", "statement": "The convergence checks reach feasible values also for negative enthalpies and whichever side can be changed, and do not change a volume flow that is inside the range of the flow characteristic.", "quantifier": "for all values, unknowns and characteristics", "why_tests_cant": "tests observe converged results, not the corrections on the way", "anchors": ["src/tespy/components/turbomachinery/compressor.py: convergence_check", "src/tespy/components/turbomachinery/turbine.py: convergence_check", "src/tespy/components/turbomachinery/pump.py: convergence_check"]}
{"id": "C230", "title": "A solution starts only on a connected network", "statement": "A network passes its check exactly if it has connections, no port is used by two of them, and every component has as many connections at its inlets and outlets as it has ports (provided the branches can be created). After any sequence of additions, deletions that did not raise and solutions, a solution gets past the check only if that holds for the network as it is then; adding a connection makes the next solution check again, and without changes a solution starts again.", "quantifier": "for all networks and all sequences of additions, deletions and solutions", "why_tests_cant": "tests build one network and solve it", "anchors": ["src/tespy/networks/network.py: check_network, solve, add_conns, del_conns"]}
{"id": "C231", "title": "A solution starts only on a connected network, also after errors", "statement": "The same after a deletion of connections that raised an error.", "quantifier": "for all sequences of additions, deletions and solutions", "why_tests_cant": "tests do not continue after an error", "anchors": ["src/tespy/networks/network.py: del_conns, check_network"]}
{"id": "C232", "title": "Equations with characteristics fix their quantity", "statement": "Whenever the expression of a characteristic and its value can be determined, the equation holds exactly if the pressure drop of a valve is that value, the pressure increase of a pump is the value of its flow characteristic, the enthalpy difference of a turbine, pump or compressor is the isentropic one with the design efficiency times that value, and the heat of a heat exchanger is that of the design kA times the harmonic mean of the values of both sides.", "quantifier": "for all states, characteristics and design values", "why_tests_cant": "tests compare converged results for one characteristic", "anchors": ["src/tespy/components/component.py: get_char_expr", "src/tespy/components/piping/valve.py: dp_char_func", "src/tespy/components/turbomachinery/pump.py: flow_char_func, eta_s_char_func", "src/tespy/components/turbomachinery/turbine.py: eta_s_char_func", "src/tespy/components/heat_exchangers/base.py: kA_char_func"]}
{"id": "C233", "title": "The report prints the equations that are solved", "statement": "For every listed constraint of connections, nodes, heat exchangers, turbomachines, reactors, combustion chambers, engines and busses, a state satisfies the equation printed in the report exactly if it satisfies the equation the solver solves: mass, energy and pressure balances of nodes, merges, splitters, droplet separators, pressure ratios, zeta, power, kA and terminal temperature differences, saturated outlets, solar collectors, isentropic efficiencies, characteristics with their argument, reactors' efficiencies, reaction equations at air ratios of at least one, thermal input, engine characteristics, and the sum of a bus.", "quantifier": "for all states and parameter values", "why_tests_cant": "tests only check that the report can be written", "anchors": ["src/tespy/tools/document_models.py", "src/tespy/components: *_func_doc and *_func"]}
{"id": "C234", "title": "The report prints the equations that are solved, everywhere", "statement": "The same for the species at a separator, friction by Darcy and Hazen-Williams, kA of simple heat exchangers, the cone law, mass balance of fuel cells, energy balance of electrolyzers, cooling of engines, air ratio, reaction equations below an air ratio of one, references between connections and the difference to the boiling point.", "quantifier": "for all states and parameter values", "why_tests_cant": "tests only check that the report can be written", "anchors": ["src/tespy/tools/document_models.py", "src/tespy/tools/global_vars.py", "src/tespy/components/nodes/separator.py: fluid_func_doc", "src/tespy/components/heat_exchangers/simple.py: darcy_func_doc, hazen_williams_func_doc, kA_group_func_doc", "src/tespy/components/turbomachinery/turbine.py: cone_func_doc", "src/tespy/components/reactors", "src/tespy/components/combustion/base.py: lambda_func_doc", "src/tespy/components/combustion/engine.py: Q1_func_doc"]}
{"id": "C235", "title": "Busses can be reported", "statement": "The report of a bus whose values can be computed is written, with the expression of every component on it.", "quantifier": "for all busses", "why_tests_cant": "tests report busses with turbomachines and heat exchangers", "anchors": ["src/tespy/tools/document_models.py: document_busses", "src/tespy/components/component.py: bus_func"]}
{"id": "C236", "title": "Linear equations hold after one Newton step", "statement": "The increments of a step solve the linearised system: Jacobian times increments is the negative of the residuals. If no unknown changes, all residuals are zero; without inverse no unknown is changed. Every equation that is linear in mass flows and enthalpies holds exactly after one step, so a system of such equations is solved by one step, and the mass flows of mergers, splitters and other nodes are balanced after every step, whatever the starting values.", "quantifier": "for all networks, values and regular Jacobians, in exact arithmetic", "why_tests_cant": "tests look at the final solution", "anchors": ["src/tespy/networks/network.py: matrix_inversion, update_variables, solve_control", "src/tespy/components/nodes/base.py: mass_flow_func, mass_flow_deriv"]}
{"id": "C237", "title": "Linear equations between pressures hold after one Newton step", "statement": "The same for linear equations between pressures, such as equal pressures at the inlets of a merge.", "quantifier": "for all values", "why_tests_cant": "tests look at the final solution", "anchors": ["src/tespy/networks/network.py: update_variables"]}
{"id": "C238", "title": "The printed increments account for all unknowns", "statement": "The numbers printed per iteration are the norms of the increments of mass flows, pressures, enthalpies, fluid composition and component parameters: every unknown is counted in the number of its kind and only there, and their squares add up to the square of the norm of all increments. NaN is printed exactly if the residuals are not numbers or the Jacobian is singular.", "quantifier": "for all increments and lists of unknowns", "why_tests_cant": "tests do not read the printed table", "anchors": ["src/tespy/networks/network.py: iterinfo_body"]}
{"id": "C239", "title": "Every specification of a component becomes equations", "statement": "After any sequence of set_attr calls, accepted or not, on a component of any of the 28 classes the preparation of the component succeeds. It has one equation for every specified parameter that has one besides the mandatory ones; a parameter group is in force exactly if all its elements are specified; all other parameters are left as the user set them. A parameter has an equation and derivatives, or neither. The derivatives of a parameter are those named after its equation.", "quantifier": "for all classes and all sequences of set_attr calls that do not replace the equations themselves", "why_tests_cant": "tests specify a few combinations for each class", "anchors": ["src/tespy/components: get_parameters of all classes", "src/tespy/components/component.py: __init__, set_attr, preprocess"]}
{"id": "C240", "title": "Every accepted specification has an effect", "statement": "Specifying a number for a parameter of a component changes the system of equations: it adds an equation, completes a group, or is used by another equation.", "quantifier": "for all classes and parameters", "why_tests_cant": "tests specify parameters that have equations", "anchors": ["src/tespy/components: get_parameters of all classes", "src/tespy/components/component.py: set_attr, preprocess"]}
{"id": "C241", "title": "Every parameter can be an unknown", "statement": "A parameter declared unknown ('var') that is accepted gets a column of the Jacobian, and the equations containing it write their derivative there.", "quantifier": "for all classes and parameters that take numbers", "why_tests_cant": "tests declare a few parameters of pipes and compressors", "anchors": ["src/tespy/components/component.py: set_attr, preprocess, pr_deriv, zeta_deriv", "src/tespy/components: *_deriv"]}
{"id": "C242", "title": "Unknown parameters start within their limits", "statement": "A parameter that is declared unknown starts at a value between its lower and upper limit.", "quantifier": "for all classes and parameters", "why_tests_cant": "tests give starting values", "anchors": ["src/tespy/components: get_parameters of all classes"]}
{"id": "C243", "title": "Power and heat loss are given or unknown", "statement": "After any sequence of set_attr calls the preparation of a combustion engine, fuel cell or electrolyzer leaves a power (and heat loss) the user specified as it is and makes it an unknown of the system otherwise, whose column the derivatives write to in every iteration; the number of equations is that of the specifications. Preparing a component a second time changes nothing.", "quantifier": "for all sequences of set_attr calls", "why_tests_cant": "tests leave the power open or specify it once", "anchors": ["src/tespy/components/combustion/engine.py: preprocess", "src/tespy/components/reactors/fuel_cell.py: preprocess", "src/tespy/components/reactors/water_electrolyzer.py: preprocess", "src/tespy/components/component.py: preprocess"]}
{"id": "C244", "title": "Energy of the reaction of hydrogen and oxygen", "statement": "The specific reaction energy of the fuel cell is negative, that of the electrolyzer its opposite, and both are 286 kJ per mol of hydrogen.", "quantifier": "for all positive molar masses", "why_tests_cant": "tests compare results with water and hydrogen", "anchors": ["src/tespy/components/reactors/fuel_cell.py: calc_e0", "src/tespy/components/reactors/water_electrolyzer.py: calc_e0"]}
{"id": "C245", "title": "Reactors accept hydrogen under its names", "statement": "A fuel cell or an electrolyzer can be used with hydrogen under any name the fluid property library knows.", "quantifier": "for all names of the fluid", "why_tests_cant": "tests use H2", "anchors": ["src/tespy/components/reactors/fuel_cell.py: preprocess, calc_e0", "src/tespy/components/reactors/water_electrolyzer.py: preprocess, calc_e0"]}
{"id": "C246", "title": "Subcooling replaces the saturated outlet of a condenser", "statement": "Whatever was specified before, the hot outlet of a condenser is required to be saturated liquid exactly if the last specification of subcooling was False (or another value Python takes for false, except None); by default it is.", "quantifier": "for all sequences of set_attr calls before", "why_tests_cant": "tests switch subcooling on once", "anchors": ["src/tespy/components/heat_exchangers/condenser.py: preprocess, get_parameters"]}
{"id": "C247", "title": "Withdrawn subcooling", "statement": "After withdrawing the specification of subcooling (None) the outlet of a condenser is required to be saturated liquid again, as by default.", "quantifier": "for all sequences of set_attr calls", "why_tests_cant": "tests do not withdraw it", "anchors": ["src/tespy/components/heat_exchangers/condenser.py: preprocess", "src/tespy/components/component.py: set_attr"]}
{"id": "C248", "title": "Steam turbines take pure fluids", "statement": "The preparation of a steam turbine succeeds exactly if one fluid at its inlet has a mass fraction above the precision, with a warning exactly if it is not water; otherwise it raises ValueError.", "quantifier": "for all compositions and sequences of set_attr calls", "why_tests_cant": "tests use water and one mixture", "anchors": ["src/tespy/components/turbomachinery/steam_turbine.py: preprocess", "src/tespy/tools/fluid_properties/helpers.py: single_fluid"]}
{"id": "C249", "title": "Warnings for the load of engines", "statement": "The check after a solution warns exactly if the load of an engine (power per design power, 1 without design) is outside of the range of one of its four characteristics.", "quantifier": "for all powers, design powers and characteristics with at least two points", "why_tests_cant": "tests do not read warnings", "anchors": ["src/tespy/components/combustion/engine.py: check_parameter_bounds"]}
{"id": "C250", "title": "Results of components belong to the calculation", "statement": "After a complete calculation the results row of a component of any class has exactly the parameters of the class that take numbers. A parameter with an equation and a pure result show the number computed from this solution, also if the parameter was specified, withdrawn or a variable before; every other number shown was specified or found by the solver in this calculation; nan is shown exactly for the rest. The power of engines, fuel cells and electrolyzers is always shown.", "quantifier": "for all 28 classes and all sequences of set_attr calls and calculations before", "why_tests_cant": "tests look at single results after one calculation", "anchors": ["src/tespy/networks/network.py: init_components, process_components", "src/tespy/components: calc_parameters of all classes"]}
{"id": "C251", "title": "A calculation keeps the numbers a user specified", "statement": "After a calculation every parameter of a component for which the user specified a number is still specified with this number.", "quantifier": "for all classes, histories and calculations, also those that reach the maximum number of iterations", "why_tests_cant": "tests of calculations without convergence do not look at parameters afterwards", "anchors": ["src/tespy/networks/network.py: solve, process_components", "src/tespy/components: calc_parameters of all classes"]}
{"id": "C252", "title": "No results of earlier calculations", "statement": "After a calculation the results of a component are not those of an earlier calculation with other specifications.", "quantifier": "for all histories and outcomes of a calculation", "why_tests_cant": "tests of failing calculations do not look at the results", "anchors": ["src/tespy/networks/network.py: solve, process_components"]}
{"id": "C253", "title": "Results do not depend on units", "statement": "A network entered in two sets of units, every specified value, starting value and reference difference standing for the same SI value, gives the same system (equations, unknowns, SI values) and the same results, each reported in its own units, or the same exception; also over several calculations. Excepted are a specified difference to the boiling temperature with degrees of different size and mass flows without starting value.", "quantifier": "for all unit systems, networks, fluid property functions that respect equality, solvers and numbers of calculations", "why_tests_cant": "tests use a few units, each network in one of them", "anchors": ["src/tespy/networks/network.py: init_set_properties, init_properties, init_val0, solve", "src/tespy/connections/connection.py: simplify_specifications, calc_results", "src/tespy/tools/helpers.py: convert_to_SI, convert_from_SI"]}
{"id": "C254", "title": "Results do not depend on units without exception", "statement": "The independence of results from units also holds with a specified difference to the boiling temperature and for mass flows without starting value.", "quantifier": "for all unit systems and networks", "why_tests_cant": "tests use a few units, each network in one of them", "anchors": ["src/tespy/networks/network.py: init_val0", "src/tespy/connections/connection.py: simplify_specifications"]}
{"id": "C255", "title": "Solving again without changes poses the same problem", "statement": "Solving a network again without changes has the same specifications, unknowns and equations for every connection, whatever the previous calculation found. Specified values stand for the same SI values: mass flow, pressure, enthalpy and difference to the boiling temperature always, vapour content unless it is lost, temperature and volumetric flow if the solution satisfies them. What is calculated in advance has the value of the last solution.", "quantifier": "for all networks, units, solver results, starting values and numbers of calculations", "why_tests_cant": "tests solve again after changes, and compare the result with one number", "anchors": ["src/tespy/networks/network.py: init_set_properties, init_properties, solve, postprocessing", "src/tespy/connections/connection.py: simplify_specifications, calc_results"]}
{"id": "C256", "title": "A calculation keeps what was specified for connections", "statement": "After a calculation every property of a connection for which the user specified a value is still specified with this value.", "quantifier": "for all calculations, also those that reach the maximum number of iterations", "why_tests_cant": "tests of calculations without convergence do not look at specifications afterwards", "anchors": ["src/tespy/networks/network.py: solve, postprocessing", "src/tespy/connections/connection.py: calc_results"]}
{"id": "C257", "title": "Tables of components follow the network", "statement": "After a complete calculation the table of results of a class has rows for exactly the components of this class in the network, whatever was added, removed, changed and calculated before; at no time there are rows of components the network does not have, and a calculation that is not complete leaves the rows as they were. Every calculation, complete or not, brings the current specifications of all components into the tables of specifications.", "quantifier": "for all sequences of adding, removing, changing and calculating, and all classes", "why_tests_cant": "tests remove a component once and look at one table", "anchors": ["src/tespy/networks/network.py: _del_comps, init_components, init_design, init_offdesign, process_components", "src/tespy/components/component.py: preprocess"]}
{"id": "C258", "title": "The report shows the components of the network", "statement": "After a complete calculation the report can be written. Its tables have exactly the components of the network, and it has a figure for exactly the characteristics that are specified.", "quantifier": "for all sequences of adding, removing, changing and calculating, and all classes", "why_tests_cant": "tests write the report of one network without changes", "anchors": ["src/tespy/tools/document_models.py: document_components, get_component_specifications", "src/tespy/networks/network.py: _del_comps, get_comp"]}
{"id": "C259", "title": "Printed exergy analyses", "statement": "Printing an exergy analysis prints exactly the tables asked for. Connections and network are printed as they are, the others without the columns group and base, with every row and value of the data, in descending order of exergy destruction with rows without number last, or in their own order if sorting is switched off.", "quantifier": "for all tables and switches", "why_tests_cant": "tests do not read what is printed", "anchors": ["src/tespy/tools/analyses.py: ExergyAnalysis.print_results"]}
{"id": "C260", "title": "Small exergy destructions are not printed", "statement": "By default, components with an exergy destruction smaller than 1000 W are not printed, as the documentation of the method says.", "quantifier": "for all results", "why_tests_cant": "tests do not read what is printed", "anchors": ["src/tespy/tools/analyses.py: ExergyAnalysis.print_results"]}
{"id": "C261", "title": "The order in which connections were added has no effect", "statement": "Two networks with the same connections in a different order: without references both calculations raise or both end with the same connections. With references the unknowns, equations and specified values of all connections are the same, and if both calculations end, so is everything that is reported for a connection without reference of pressure or enthalpy.", "quantifier": "for all networks, orders, units, starting values, files and solver results", "why_tests_cant": "tests add connections in one order", "anchors": ["src/tespy/networks/network.py: init_set_properties, init_design, init_offdesign, init_properties, postprocessing", "src/tespy/connections/connection.py: simplify_specifications, calc_results"]}
{"id": "C262", "title": "The order in which connections were added has no effect on starting values of references", "statement": "The starting values of unknowns with references, and whether a calculation raises, do not depend on the order in which connections were added.", "quantifier": "for all networks and orders", "why_tests_cant": "tests add connections in one order", "anchors": ["src/tespy/networks/network.py: init_properties"]}
{"id": "C263", "title": "References in a report lead to equations and figures", "statement": "In the LaTeX report written by document_model every reference to an equation or to a figure (in headers of tables, captions, and the table of a bus) has its target in the same report: specified properties and fluids of connections, user defined equations, mandatory constraints with characteristics, specified parameters, groups and characteristics of components, and characteristics of busses. A characteristic of busses that is used with one base is shown in one figure for all busses and components that use it, and every used one is shown.", "quantifier": "for all networks: any specified properties and fluids, user defined equations with lines and maps, classes whose characteristics and groups with characteristics have documented equations, and busses", "why_tests_cant": "any number of classes, busses and shared characteristics; tests compile no report", "anchors": ["src/tespy/tools/document_models.py:document_model", "src/tespy/tools/document_models.py:get_component_specifications", "src/tespy/tools/document_models.py:document_busses"]}
{"id": "C264", "title": "Labels and figures of a report are unambiguous for distinct names", "statement": "If the names of a network are apart (classes without underscores, distinct constraints and parameters, distinct user defined equations without regard to spaces) and at most one bus has a given total, all labels of equations in the report are distinct. If labels of components are distinct without regard to spaces, no parameter name begins another, and a component has the same characteristic on all its busses, every figure of the report shows the characteristic it was made for, although files may be drawn several times.", "quantifier": "for all networks with these names", "why_tests_cant": "the names of files and labels are built by concatenation, which could coincide for unforeseen names", "anchors": ["src/tespy/tools/document_models.py:generate_latex_eq", "src/tespy/tools/document_models.py:create_latex_CharLine", "src/tespy/tools/document_models.py:create_latex_CharMap", "src/tespy/tools/document_models.py:document_ude", "src/tespy/tools/document_models.py:document_busses"]}
{"id": "C265", "title": "Labels and figures of a report are always unambiguous", "statement": "Whatever labels a user gives to components, equations and busses (all distinct), the labels of equations and figures in the report are distinct, and every figure shows the characteristic of the component named in its caption.", "quantifier": "for all networks with distinct labels", "why_tests_cant": "needs two busses with given totals, labels that differ in a space only, a component with different characteristics on two busses, or an equation with a line and a map", "anchors": ["src/tespy/tools/document_models.py:generate_latex_eq", "src/tespy/tools/document_models.py:create_latex_CharLine", "src/tespy/tools/document_models.py:document_ude", "src/tespy/tools/document_models.py:document_busses"]}
{"id": "C266", "title": "Headers of tables in the report name the unit of their values", "statement": "In the table of connections of the LaTeX report, the header of every property names exactly one of the units TESPy knows for this property, and the values below it are the SI results converted to this unit, whatever settings were changed before the calculation; settings changed after it do not matter as long as they are not the unit of the property, nor does a file of starting values in the same units. The LaTeX texts of different units differ.", "quantifier": "for all sequences of settings and calculations, properties, connections and results; all texts of units without braces, backslashes and second slashes", "why_tests_cant": "any sequence of unit changes; tests read no report", "anchors": ["src/tespy/tools/helpers.py:latex_unit", "src/tespy/tools/document_models.py:document_connection_params", "src/tespy/networks/network.py:init_set_properties", "src/tespy/networks/network.py:process_connections"]}
{"id": "C267", "title": "Tables of the report are complete for all labels and units", "statement": "Whatever labels a user gives to connections and components and whatever supported units are chosen at any time, every row of a table in the report shows the label and each value in its column, and the header names the unit of the values.", "quantifier": "for all labels, units and sequences of settings", "why_tests_cant": "needs a label with an ampersand or a percent sign, vapour mass fractions in percent, a change of units between calculation and report, or starting values from a file in other units", "anchors": ["src/tespy/tools/document_models.py:create_latex_table", "src/tespy/tools/helpers.py:latex_unit", "src/tespy/tools/document_models.py:document_connection_params"]}
{"id": "C268", "title": "Ambient temperatures are read in the unit of the network", "statement": "In every calculation, the equations of simple heat exchangers, pipes and solar collectors use at every iteration the ambient temperature given last, read in the temperature unit the network has at that time; a calculation does not change the number. Sessions that mean the same ambient temperature in different units use the same one.", "quantifier": "for all sequences of settings, values of Tamb and calculations in which Tamb is not made a variable", "why_tests_cant": "any sequence of unit changes between calculations", "anchors": ["src/tespy/components/heat_exchangers/simple.py:preprocess", "src/tespy/components/component.py:set_attr", "src/tespy/networks/network.py:init_set_properties"]}
{"id": "C269", "title": "An ambient temperature can be a variable", "statement": "If Tamb is specified as 'var', which set_attr accepts, the equations use the value the solver has found.", "quantifier": "for all calculations", "why_tests_cant": "needs Tamb as variable; tests use numbers", "anchors": ["src/tespy/components/heat_exchangers/simple.py:preprocess", "src/tespy/networks/network.py:update_variables"]}
{"id": "C270", "title": "Convergence checks of combustion chambers reach feasible values", "statement": "The check brings the unknown mass fractions of the flue gas into the expected range (oxygen 0.001 to 0.25, carbon dioxide and water 0.001 to 0.1, no fuel, inert fluids within 0.03 of the mixture of the inlets), keeps those already in the range and then divides the unknown fractions by the sum of all. An unknown mass flow of the outlet is not negative afterwards, an unknown enthalpy without good starting value is at least 7.5e5 J/kg; feasible values are kept. Inlet mass flows change only if unknown and negative, or, with an air ratio below two that is not specified, for the fuel at the second inlet: its mass flow becomes 1/25 of that of the air.", "quantifier": "for all states, unknowns and compositions", "why_tests_cant": "tests observe converged results, not the corrections on the way", "anchors": ["src/tespy/components/combustion/base.py: convergence_check"]}
{"id": "C271", "title": "Corrections of combustion chambers without exceptions", "statement": "The correction of the fuel mass flow does not depend on which inlet has the fuel, and the fractions are in the expected range after the check.", "quantifier": "for all states, unknowns and orders of the inlets", "why_tests_cant": "tests connect air to the first and fuel to the second inlet", "anchors": ["src/tespy/components/combustion/base.py: convergence_check"]}
{"id": "C272", "title": "Specifications are marked for the report", "statement": "After a successful preparation of a calculation everything the user gave at a connection is marked in the tables of specifications the report is written from: mass flow, properties, fluids, fluid balance and references. Properties other than mass flow, the fluid balance and references are marked exactly if they are given; a mass flow is marked exactly if it is given somewhere in its branch, and a fluid exactly if it is given in its branch or follows there from given fractions, which add up to one or leave a single fluid.", "quantifier": "for all networks, branches and specifications for which the preparation succeeds", "why_tests_cant": "tests do not read the tables of specifications; the containers of mass flow and composition are shared while the tables are written", "anchors": ["src/tespy/networks/network.py:init_count_connections_parameters", "src/tespy/networks/network.py:presolve_massflow_topology", "src/tespy/networks/network.py:presolve_fluid_topology"]}
{"id": "C273", "title": "Only specifications are marked in the report", "statement": "A mass flow or fluid that is marked as specified, and therefore bold in the report, was given by the user at that connection, or at least, for a fluid, in its branch.", "quantifier": "for all networks, branches and specifications for which the preparation succeeds", "why_tests_cant": "needs a branch of several connections and a look at the tables; reports of tests are not read", "anchors": ["src/tespy/networks/network.py:init_count_connections_parameters", "src/tespy/tools/document_models.py:document_connection_params"]}
{"id": "C274", "title": "Starting values of unknown compositions", "statement": "In the first calculation of a network with several fluids an unknown mass fraction starts, at all connections of a branch, with the value given as fluid0 at the first connection of the branch, or with one over the number of fluids if none is given there. Fractions that have a value keep it, whatever starting values are given.", "quantifier": "for all networks, branches, starting values and specifications for which the preparation succeeds", "why_tests_cant": "tests observe converged results; starting values of single fractions are not read", "anchors": ["src/tespy/networks/network.py:propagate_fluid_wrappers", "src/tespy/networks/network.py:presolve_fluid_topology", "src/tespy/connections/connection.py:set_attr"]}
{"id": "C275", "title": "Starting values of compositions are used wherever and whenever they are given", "statement": "A starting value given with fluid0 at any connection, also after a calculation, is where the next calculation starts if the fraction is unknown, and a fluid given with fluid0 is a fluid of the connection.", "quantifier": "for all networks, connections and histories", "why_tests_cant": "needs a starting value at a connection that is not the first of its branch, a change between two calculations, or a fluid that is given as starting value only", "anchors": ["src/tespy/networks/network.py:propagate_fluid_wrappers", "src/tespy/networks/network.py:presolve_fluid_topology"]}
