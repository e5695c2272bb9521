# Design of the Rocq model of tespy

This file says, for every property in `properties.jsonl`, what is modelled and
how it is proved. It is written before the proofs and updated with them. The
per-property status is in `MANIFEST.json`.

## Layout

All Coq files are flat in `rocq/theories` (logical name `Verif`). Each area has

* `<Area>Model.v` – definitions only, each citing the file and lines in `/repo`
  it models, with simplifications stated in the comment;
* `<Area>Spec.v` (or a leading section of the property file) – the small,
  model-independent vocabulary used in the statements;
* `<Area>Proofs.v` – lemmas;
* `<Area>Props.v` – the property theorems, each closed by `exact`, an
  `Example` showing that the hypotheses are met by a non-trivial case, and
  `Print Assumptions`.

Theorem names: `Cnn_...`. Suffix `_partial`: part of the property, the comment
says what is missing. Suffix `_refuted`: the property is false of the faithful
model, the theorem exhibits the witness (an input for which the real code does
the wrong thing).

## Modelling conventions

* **Numbers.** Every finite IEEE double is a rational. Code that only uses
  `+ - * /` and comparisons (unit conversion, characteristics, Newton step,
  bounds, fluid fractions, presolver) is modelled over `Q`: the model runs
  (`vm_compute`) and the theorems are axiom free. Code whose equations need
  logarithms, powers, or partial derivatives (component equations and
  Jacobians, exergy, mean temperature differences) is modelled over stdlib `R`.
  **Rounding is not modelled**; arithmetic is exact.
* **nan** is modelled explicitly (an option or an extra constructor) wherever
  the code can branch on it or produce it (connection specifications,
  convergence test, bus power, exergy results).
* **Exceptions are values**: `Ok a | Err e`. When a Python method mutates an
  object and then raises, the model returns the mutated state next to the
  error, so that "a failing call changes nothing" is a meaningful statement.
* **Aliasing.** The presolver shares data container objects between
  connections. Those parts are modelled with an explicit heap (addresses to
  containers), connections holding addresses.
* **External code** (CoolProp, iapws, pyromat property functions, `numpy.linalg`,
  pandas I/O) is an oracle: a function argument that the theorems quantify
  over, so nothing is assumed about it unless the statement says so.
* Python dictionaries are association lists in insertion order; object identity
  of connections/components is a natural number.

## Properties

| id | modelled | how proved |
|----|----------|------------|
| C01 | `convert_to_SI`, `convert_from_SI`, the complete unit table, over Q | case analysis on the table, field identities |
| C02 | `Network.set_attr` unit/range part as state transformer that may fail half way | symbolic execution over the key list; refutation of atomicity by a witness |
| C03 | `CharLine.evaluate` with `searchsorted` | induction over the data; Lipschitz bound for continuity |
| C04 | `CharMap.evaluate_x/evaluate_y/evaluate` | reduction to C03-style bracketing lemma |
| C05 | CharMap rows as heap objects, `evaluate_x` returning views, compressor in-place scaling | frame theorem where the view is fresh; refutation by computation otherwise |
| C06, C07 | `newton_with_kwargs` loop on explicit state, function and derivative as oracles | loop invariant, measure on the iteration counter; refutation by computation |
| C08 | `_numeric_deriv` as a state transformer on the variable's value, equation as oracle | algebra; refutation for fractions below the step width |
| C09, C10 | `Connection.set_attr`/`_parameter_specification` on records of containers | case analysis, frame lemma, induction over call histories; refutation for nan and for Ref followed by number |
| C11 | `_fluid_specification` on association lists | induction over call history; refutation if accumulation contradicts the statement |
| C12 | `Component.set_attr`, group flag computation in `preprocess` | as C09 |
| C13, C14 | connection table and component table with `add_conns`/`del_conns` including the raising paths | invariant over all histories; refutation for failing calls |
| C15 | `check_conns`, `check_components`, `init_components` | lemma: acceptance implies duplicate freedom and full ports |
| C16 | `propagate_to_target` family as a fuelled walk on the port graph | unique-predecessor argument gives a bound on the walk length |
| C17, C18 | `presolve_massflow_topology` and the reset on a heap | refinement to "one value per branch"; refutation for the raising paths |
| C19 | `presolve_fluid_topology` per branch | case analysis on the number of open fractions, sum lemmas |
| C20 | `_assign_variable_space` and component variables | counting invariant |
| C21 | row offsets of `solve_*` | invariant on `sum_eq`; refutation for equations without unknowns |
| C60 | equation and unknown counts around `presolve_fluid_topology` | counting per branch |
| C61 | row counter of `solve_*` for objects without unknowns | refutation; true part from C21 |
| C22, C23, C62, C63, C64 | `solve_determination`, `solve_loop` with an arbitrary Newton step incl. nan, exceptions | induction over iterations; refutations by computed runs |
| C24, C25, C26, C65, C66, C67 | `update_variables`, `check_variable_bounds`, `check_connection_properties` | inequalities over Q, list sums |
| C27, C28 | residual functions of the components over R | linear/non-linear arithmetic, list sums for nodes |
| C29, C30 | residuals as functions of a variable assignment (column -> value), analytic derivative rows | `derivable_pt_lim` of the residual along each coordinate; refutation where columns are shared |
| C31 | equation counts vs. residual list length | list length lemmas; refutations |
| C68-C74 | same model: shared containers, component variables, composition columns, increment filter, separator columns, counts, dropped equations | refutation by concrete states; formulas of the wrong entries as `_partial` |
| C32 | `ReportModel.v`: parameter equations and `calc_parameters` reports over R, division and `math.log` raise | algebra per parameter |
| C33, C76 | `calculate_td_log` of heat exchanger and condenser, mean difference of the simple exchanger, line by line | bounds of the logarithm; refutation by states |
| C34, C78 | zeta, Darcy (friction law arbitrary), Hazen-Williams equations; specific volumes are given numbers | sign and uniqueness; refutation |
| C35 | friction factor branches, Prandtl-Karman and Colebrook functions | monotonicity, intermediate value theorem, derivative |
| C75, C77 | same model: reports in the states excluded by C32 | refutation by states, exact formulas as `_partial` |
| C36, C84 | `stoichiometry` and `calc_ti` of the combustion chamber over Q for any list of fuels C_xH_y and abstract molar masses (CombModel) | residual of every fluid computed symbolically, then sums over the fluid list; the air ratio below one is refuted, exact deficits as partial result |
| C85, C91 | energy balance, its columns; thermal input row | finite shift of one unknown (the equations are linear in each unknown); refutation by computation |
| C86 | characteristic equations and results of the engine, diabatic chamber | algebra |
| C87, C92 | alias search of the setup (alias function is an oracle), heating values | induction over the fuel table; refutation with an alternative name |
| C88-C90 | `convergence_check` of the combustion chamber with flags for unknowns | frame lemma by cases; refutations by computation |
| C37 | physical exergy and the exergy and entropy balances of the components in rationals with nan, fluid functions arbitrary | algebra in every temperature case against one net-exergy formula; entropy part from the energy balance |
| C93-C97 | the same balances: simple heat exchanger, electrolyser, engine, chamber | refutations with a consistent fluid (h = T^2/2 + vp, s = T); partial cases by algebra |
| C38 | `ExergyAnalysis` on rows with nan; bus efficiencies, fluid categories and component balances are inputs; plotting is not modelled | induction over the components, double counting of connections |
| C98-C101 | sankey tables, aggregation and group data | partition of a sum by groups; refutations by computation |
| C39 | molar fractions, condensation split, mixing functions, choice of the rule; pure fluid properties are functions of the wrapper | sums over dictionaries, `field` |
| C102, C103 | temperature range, inversion by Newton's method (`NewtonModel`) | linear enthalpy makes the first step exact |
| C104-C109 | wet volume, forced gas, tables of rules, numerical derivatives, critical point handling | refutations by computation, partial parts by cases |
| C40 | component values of turbomachines, heat exchangers, engine heat, electrolyser heat; characteristic evaluation; bus value with the Newton search for base bus; residual and row; results | algebra over lists of components, numeric derivative of affine functions; fixed point of the search at the design state |
| C79-C83 | results of busses, `bus.jacobian` between runs, components without bus functions | refutations by computation; exact drift and harmless left-over columns as partial results |
| C41, C118-C121 | `export` and all `_serialize` methods, `load_network` and the `_construct_*` functions, the accepting `set_attr` calls, on values of the JSON kinds; the directory is a state (class files, connections, busses, network); class registry, engine names and usability of an engine for a fluid are arguments; the file order of `os.listdir` is the order of the list; the closing `check_network` and the lazily set `num_in`/`num_out` defaults are left out | each serializer inverted by its reader, then connection by connection, reference pass, class file by class file; refutations on one good network by computation |
| C42, C113, C117 | `solve`, `initialise` (mass flow sharing, specified values, reading design values), `init_design`, `init_offdesign`, reset and results, on states with shared mass flow containers; tables and solver are oracles | what one calculation does to one connection/component, then induction over histories; invariant: design values are those of the stored path or marked new |
| C110-C112, C114-C116 | the same | refutations by computation of histories |
| C43 | `merge_dicts` on nested dictionaries | nested induction |
| C44, C54 | bus/UDE registries, keys of the results dictionary, component rows of a bus | invariant over histories; refutation for colliding names |
| C45-C50 | parts of C02, C08, C09, C11, C12 that are false of the code | refutation by witness, true part as `_partial` |
| C51, C55 | parts of C14, C15 that are false of the code | refutation by witness |
| C56, C57, C58, C59 | raising path of C17; parts of C19; specifications, engines and mixing rules across solves on the heap | refutation by computed witnesses; `_partial` theorems for the part that holds |
| C122, C123 | `set_attr` of connections and components, malformed calls | case analysis per keyword, induction over the keywords; refutation of atomicity by witness |
| C124-C134 | `init_set_properties`, `set_offdesign` of connections, `simplify_specifications`, `_assign_variable_space` (m, p, h), `init_properties` with `init_conn_params_from_path`, `init_val0`, `init_precalc_properties` and the phase check, `calc_results` of connections; property functions of a composition are arbitrary functions that may raise, the solver an arbitrary result | every step is shown to keep what the next ones read, results follow by chaining; refutations by witness with a fluid boiling at 373 K. Not modelled: shared mass flow containers and unknown compositions (own areas), start value of the temperature iteration of mixtures |
| C135 | engines of `propagate_fluid_wrappers` and `_create_fluid_wrapper` on the heap of C19 | invariant over the connections of a branch; computed witnesses |
| C136-C140 | `OptimizationProblem` (`tools/optimization.py`): dictionaries of the object types as heap objects shared by `variables` and `input_dict`; the model of the user and the algorithm are oracles | enumeration lemmas, invariant over histories of evaluations, table invariant; computed witnesses |
| C141-C145 | `MovingBoundaryHeatExchanger._get_h_steps` … `calc_td_pinch`, `calc_UA`; saturation and temperature functions are oracles, Q up to the logarithms, then R | sorting lemma, prefix sums, bracket of a position between two limits; bounds by induction over the sections; computed witnesses |
| C146 | `darcy_friction_factor` (ReportModel) and the Darcy equation; the Colebrook root is characterised, not computed | the jump at Re 2320 from the factor's bounds, monotonicity within a regime by algebra on the implicit equation |
| C147-C150 | `SolarCollector`/`ParabolicTrough.energy_group_func`, reported losses; `SteamTurbine.eta_s_wet_func`, phases of the CoolProp wrapper; isentropic and saturation enthalpies and `brentq` are oracles, over R | linear algebra, bounds of x**1.5; case split over the phases, the root splits the expansion; computed witnesses |
| C151-C153 | `UserDefinedEquation.__init__`, `numeric_deriv` (on NumDerivModel), remapping of connections in `Network.solve_determination`; dictionaries on a heap, functions with the name of their parameter | case analysis; induction over equations and connections; witnesses |
| C52, C154, C155 | `create_fluid_wrapper_branches`, `start_fluid_wrapper_branch`, `propagate_wrapper_to_target` of all classes (on TopoModel); the recursion by fuel, out of fuel is RecursionError; orders of sets are arbitrary | abstract depth first search (WrapDfs: sound, complete, terminates within the number of connections), invariant of the merge loop; witness networks |
| C156–C164 | `get_char_expr`, `eta_s_char_func` of turbines, pumps and compressors, `flow_char_func`, `dp_char_func`, `kA_char_func`, `kA_char_group_func`, `check_parameter_bounds`, `get_domain_errors*`; lines of data/char_lines.json copied (OffData); fluid properties are functions | algebra on Q and evaluation of the copied lines; lists for the checks; witnesses |
| C165–C167 | `cone_func` with its formula and the documented one, over R | squares and square roots of nonnegative numbers; witnesses |
| C168–C173 | `single_group_input`, `remove_transit_groups`, `generate_plotly_sankey_input` on the tables of AnalysisModel | sequences of removal steps; invariants of flows, nodes and targets; search in lists; witnesses through whole analyses |
| C174 | residual functions of EqnModel | field arithmetic: the residual vanishes iff the definition of the parameter holds |
| C175, C176 | the tables of `create_group_data` (AnalysisModel, SankeyModel) | weighted sums over rows kept through every writing step; flows of busses per column; exchange of sums over components and connections |
| C177, C178 | `initialise_source`/`initialise_target` of all classes with Python's method lookup by name (InitModel), `init_val0` (StateModel) | the documentation as a separate table (InitSpec); case analysis over the classes; C178 refuted: misspelt `initialise_Source`, 50 bar instead of 4 bar, exchanged outlets |
| C179–C181 | `Subsystem.__init__`, `add_subsys`, label checks and default labels (SubsysModel over TopoModel) | induction over subsystems and connections; injectivity of the default label by its separators; C181 refuted with labels |
| C182 | the model of C42 with the shared containers as a heap | owner of the container of each connection after presolving; every step changes only the container in use; induction over loops and histories |
| C183 | the model of C41, for arbitrary file contents (IoModel) | soundness of each reader by inversion, invariants of the loops |
| C184, C185 | calc_chemical_exergy, exergy_chemical_ideal_cond, get_chemical_exergy over tables with numbers and text (ChemExModel), logarithm as parameter | induction over the loop; composition of the gas from C39 |
| C186, C187 | the same model | refuted with rows of the delivered tables and with traces |
| C188 | the functions of pressure and enthalpy, temperature from entropy, isentropic (PhModel) | inversion of affine functions (C102), agreement up to equality of rationals |
| C189 | residual and derivative of 45 equations with numerical entries over arbitrary property functions (JacModel); spec: entry = derivative or difference quotient, no entry = independent (JacSpec) | which containers each residual reads, which columns are written; hand-written entries as slopes of linear functions |
| C190, C191, C192 | the same model | refuted by concrete networks; C69 extended the same way |
| C193, C194, C195 | PlantModel: a plant is any list of components with their connections, equations from EqnModel and JacModel, containers shared along branches | local balances summed over a wiring in which every connection leaves and enters one component |
| C196, C197, C198 | the same model | refuted: loop with a cycle closer for any imbalance, drum with two fluids, fuel cell with negative power |
| C199 | CycleCloser.calc_parameters | norm vanishes iff all differences vanish |
| C200 | the residual functions of JacModel (C189) | field arithmetic, logarithms and square roots; the residual vanishes iff the textbook relation holds |
| C201, C202 | ProgressModel: iterinfo_body with logarithms over R | monotonicity of the logarithm; refuted by nan |
| C203, C204, C205 | PrintModel: tables as titles, columns, rows; str is a parameter | induction over rows; refuted by an unsolved network and by a component labelled total |
| C206, C207 | EntropyModel: entropy_balance of heat exchangers, machines and valves, s_mix_ph a parameter | mean value theorem; refuted by an adiabatic pipe of an ideal gas |
| C208–C213 | EngModel: the three wrappers over arbitrary libraries, CoolProp as a state object; names; reported values; v_deriv | case analysis of the methods; induction over names; refuted by concrete libraries |
| C214–C218 | DocModel: placement of figures, files of figures, tables of connections and components as filters of result tables, the loop over references | induction over figures; case analysis; refuted by concrete networks |
| C219 | JacBusModel: values and Jacobian entries of busses, columns of C189 | rows of sums are sums of rows |
| C220 | PlotModel: get_plotting_data of the classes, states as functions of a property | case analysis |
| C221–C225 | LogModel: call stacks, keyword arguments, handlers with the records received, existing directories, forms of .git | arithmetic of stack levels; symbolic execution; refuted by concrete settings |
| C226, C227 | CharLoadModel: data files as nested dictionaries, installation in preprocess | case analysis of look-ups; refuted by the files shipped |
| C228, C229 | convergence_check of UpdateModel (C25) | linear arithmetic over all branches; refuted by concrete values |
| C230, C231 | CheckedModel: check_network and its flag over the tables of TopoModel | invariant over histories; refuted by a failed deletion |
| C232 | equations of OffModel | direct |
| C233 - C235 | DocEqModel: meaning of the LaTeX code of all *_func_doc and bus_func_doc methods, written down by hand as propositions | equivalence with the residuals of EqnModel, JacModel, ReportModel, CombModel, OffModel, BusModel; refuted where signs, indices or cases differ |
| C236 - C238 | StepModel: matrix_inversion with the inverse as a parameter, the step of solve_control, nodes' mass balance with its Jacobian, columns of the printed table | linear algebra with finite sums over Q; numpy's inverse is assumed to be a right inverse where it returns; refuted for relaxed pressures |
| C239 - C242 | TableModel: get_parameters of all 28 classes with kinds, defaults, limits, equations and derivatives, a new component, the columns of the Jacobian the derivative methods write to | the tables are transcribed from the code class by class; invariants over histories of set_attr; facts about the tables by computation over all classes; a column of zeros has no inverse by elimination (LinProofs); that an ignored parameter is not read by any equation is read off the source, not modelled |
| C243 - C249 | PrepModel: preprocess of engine, fuel cell, electrolyzer, condenser and steam turbine, calc_e0, check_parameter_bounds of the engine, on the components of TableModel | for all histories of set_attr by the invariant of the tables; names of hydrogen and withdrawn subcooling refuted |
| C250 - C252 | CellModel: process_components, which parameters calc_parameters of every class writes and when, the order of preparation, solution and results; numbers found and computed are given per calculation | invariant over any sequence of set_attr and solve; table of written parameters checked against the 28 parameter tables; overwritten specifications and stale rows refuted with a pump |
| C253, C254 | StateModel (set_properties, presolve, starting values, results), two networks in two sets of units | simulation: a relation of two connections kept by every stage, pointwise over the networks; property functions respect equality of rationals; the two exceptions refuted with witnesses |
| C255, C256 | StateModel: results of one calculation as the start of the next | flags, names and equations are kept by every stage; SI values of specifications through the conversions of results; the presolved values by inverse property functions; refutations with unsatisfied specifications |
| C257, C258 | SpecTabModel: tables of results and specifications over sessions of adding, removing, changing, calculating; which components and figures the LaTeX report has | invariants of the four tables over sessions; the report by its loops; refutations with a removed pump and with two heat exchangers |
| C259, C260 | ExPrintModel: print_results of exergy analyses | insertion sort is a sorted permutation, sections by their headlines; refutation of the documented threshold |
| C261, C262 | StateModel with permuted lists of connections | loops without references are maps, which permute; with references the second pass moves only start values, which the solver and the results overwrite; refutations with a chain of references |
| C263, C264, C265 | XrefModel: labels, references, drawings and figure files of the report | references section by section, busses with the shared list of drawn characteristics as invariant; labels and file names are injective by first and last underscore; refutations by four networks |
| C266, C267 | RepTexModel: latex_unit, escaped labels, headers and rows of tables, units over sessions of settings and calculations | rows are read by a small LaTeX reader (ampersands, comments, end of row); units over any sequence of settings by the invariant of C02; unit texts are injective by cutting at braces; refutations by computed rows |
| C268, C269 | AmbModel: specification of Tamb, its SI value at the start of a calculation, increments of the solver | induction over sessions with the invariant of C02; refutation by a session with a variable |
| C270, C271 | UpdateModel: conv_combustion | loop over fluids with frame conditions, fractions before the division as witness; refutations by a chamber with fuel first and one with specified fractions |
| C272, C273 | MarkModel: conn_row, write_tables, prepare, report | rows by distinct labels; reduction of mass flows and fluids from C17 and C19 with the fixed fluids of a branch added; refutations by a merge of two branches |
| C274, C275 | FluidModel: start_fractions, propagate, presolve_fluids | values after propagation by induction over connections with separate dictionaries, each branch reduced as if alone; refutations by a merge with starting values |
| C53 | coverage of branches (C16) | refutation by a separate loop; proved for loop free networks by a backward chain argument |

## Trusted base

Coq 8.16.1's kernel; the correspondence of the definitions with the Python text
(read, not tested: the code cannot be run here); the conventions above. The
axioms each theorem depends on are listed at the end of this file.

## Not modelled

Rounding and overflow of floating point numbers, the property libraries themselves
(CoolProp, iapws, PYroMat: oracles), `numpy.linalg.inv` (an oracle with its law), the text formats of
pandas, JSON and LaTeX (what is written is modelled, not how it is spelled), drawing by
matplotlib, the CUDA branch, time. Which functions these concern is listed below.

## Modelled code, function by function

Per file of src/tespy: functions with the files of the model that cite their lines (without the
ending `Model`), then functions that are not modelled. A function may be modelled in parts; the
comment at each definition says which lines it stands for and what it leaves out.

### components/basics/cycle_closer.py

- Table: get_parameters
- Table, Plant: get_mandatory_constraints
- Branch: is_branch_source, start_branch, propagate_to_target
- Wrap: start_fluid_wrapper_branch, propagate_wrapper_to_target
- VarSpace (through Component.preprocess): preprocess
- Cell, Plant: calc_parameters
- not modelled: `CycleCloser.component` (returns a name), `CycleCloser.inlets` (constant list, as used in TopoModel and BranchModel), `CycleCloser.outlets` (constant list, as used in TopoModel and BranchModel)

### components/basics/sink.py

- Table: get_mandatory_constraints
- Branch: propagate_to_target
- Wrap: propagate_wrapper_to_target
- Exergy: exergy_balance
- not modelled: `Sink.component` (returns a name), `Sink.inlets` (constant list, as used in TopoModel and BranchModel)

### components/basics/source.py

- Branch: is_branch_source, start_branch
- Wrap: start_fluid_wrapper_branch
- Table: get_mandatory_constraints
- Exergy: exergy_balance
- not modelled: `Source.component` (returns a name), `Source.outlets` (constant list, as used in TopoModel and BranchModel)

### components/basics/subsystem_interface.py

- Table: get_mandatory_constraints, get_parameters
- Io: inlets, outlets
- not modelled: `SubsystemInterface.component` (returns a name)

### components/combustion/base.py

- Table: get_parameters
- Table, Plant: get_mandatory_constraints
- Branch: is_branch_source, start_branch, propagate_to_target
- Wrap, Report: propagate_wrapper_to_target
- Prep: preprocess
- Comb, Branch: _get_combustion_connections
- Comb: setup_reaction_parameters, calc_lhv, ti_func, ti_deriv
- Comb, Jac: mass_flow_func, energy_balance_deriv, lambda_func, calc_lambda
- DocEq: mass_flow_func_doc, combustion_pressure_func_doc, energy_balance_func_doc, lambda_func_doc, ti_func_doc, bus_func_doc
- Jac: mass_flow_deriv, combustion_pressure_func, combustion_pressure_deriv, stoichiometry_deriv, lambda_deriv
- Comb (`stoichiometry` for each fluid): stoichiometry_func
- Jac, Comb: stoichiometry
- DocEq, Xref: stoichiometry_func_doc
- Comb, Jac, Plant: energy_balance_func, calc_ti
- Report, JacBus: bus_func
- JacBus: bus_deriv
- Comb, Update: convergence_check
- Init: initialise_source, initialise_target
- Cell: calc_parameters
- Exergy: entropy_balance, exergy_balance
- not modelled: `CombustionChamber.component` (returns a name), `CombustionChamber.inlets` (constant list, as used in TopoModel and BranchModel), `CombustionChamber.outlets` (constant list, as used in TopoModel and BranchModel)

### components/combustion/diabatic.py

- Table: get_parameters, pr_deriv
- Table, Plant: get_mandatory_constraints
- Eqn, Report (`pr_eq`): pr_func
- DocEq: pr_func_doc, energy_balance_func_doc
- Comb, Jac: energy_balance_func
- Cell, Comb: calc_parameters
- Exergy: exergy_balance
- not modelled: `DiabaticCombustionChamber.component` (returns a name)

### components/combustion/engine.py

- Table, Comb: get_parameters
- Table, Plant, Xref: get_mandatory_constraints
- Branch, Plant: propagate_to_target
- Wrap: propagate_wrapper_to_target
- Prep: preprocess, check_parameter_bounds
- Comb, Branch: _get_combustion_connections
- Comb, Jac: energy_balance_func, tiP_char_func, Q1_char_func, Q2_char_func, Qloss_char_func
- DocEq: energy_balance_func_doc, Q1_func_doc, Q2_func_doc, tiP_char_func_doc, Q1_char_func_doc, Q2_char_func_doc, Qloss_char_func_doc, bus_func_doc
- Jac, Table: energy_balance_deriv, tiP_char_deriv, Q1_char_deriv, Q2_char_deriv, Qloss_char_deriv
- Jac: Q1_func, Q1_deriv, Q2_func, Q2_deriv
- Comb, JacBus: calc_P, calc_Qloss
- Bus, JacBus: bus_func
- JacBus, Bus: bus_deriv
- Init: initialise_source, initialise_target
- Cell, Comb: calc_parameters
- Exergy: entropy_balance, exergy_balance
- not modelled: `CombustionEngine.component` (returns a name), `CombustionEngine.inlets` (constant list, as used in TopoModel and BranchModel), `CombustionEngine.outlets` (constant list, as used in TopoModel and BranchModel)

### components/component.py

- Io: component_registry, _serialize, _serializable
- Io, Cell, Subsys, Topo, CompSpec, …: __init__
- CompSpec, Cell, Io, Amb: set_attr
- Io, Off: get_attr
- Branch: is_branch_source
- Branch, Plant: propagate_to_target
- Wrap, Branch: propagate_wrapper_to_target
- CompSpec, Off, Cell, SpecTab, VarSpace, …: preprocess
- Table: get_parameters, get_mandatory_constraints
- Eqn: is_variable, pressure_equality_func, pressure_equality_deriv, enthalpy_equality_func, enthalpy_equality_deriv, dp_deriv
- Off, Jac: get_char_expr
- DocEq: get_char_expr_doc, pressure_equality_func_doc, enthalpy_equality_func_doc, pr_func_doc, zeta_func_doc
- Assembly, Eqn, Plant, Table: solve
- Bus, DocEq: bus_func
- Bus, JacBus: calc_bus_expr, calc_bus_value
- Bus, JacBus, Analysis: calc_bus_efficiency
- Init: initialise_source, initialise_target
- Mode: set_parameters
- Cell: calc_parameters
- Off: check_parameter_bounds
- Update: convergence_check
- Entropy (the base class does nothing): entropy_balance
- Exergy: exergy_balance, _calc_epsilon
- Plot: get_plotting_data
- NumDeriv (passes its arguments to `_numeric_deriv`): numeric_deriv
- Eqn, Report: pr_func, dp_func
- Eqn, Table: pr_deriv
- Report: calc_zeta
- Jac, Report: zeta_func
- Jac, Table: zeta_deriv
- not modelled: `Component.inlets` (constant list, as used in TopoModel and BranchModel), `Component.outlets` (constant list, as used in TopoModel and BranchModel)

### components/heat_exchangers/base.py

- CharLoad: component
- Table, Comb, Report: get_parameters
- Table, Plant, Comb: get_mandatory_constraints
- Comb, Plot: inlets, outlets
- Comb: preprocess
- Comb, Eqn: energy_balance_func, energy_balance_deriv
- Comb, DocEq: energy_balance_func_doc, kA_func_doc, kA_char_func_doc, ttd_u_func_doc, bus_func_doc
- Report, Eqn: energy_balance_hot_func
- DocEq: energy_balance_hot_func_doc, ttd_l_func_doc
- Eqn: energy_balance_hot_deriv
- Report, Jac: calculate_td_log
- Off, Jac, Report, Eqn: kA_func
- Comb, Jac, Eqn: kA_deriv, calc_dh_max_cold, eff_cold_deriv, eff_hot_deriv
- Off, Comb, Jac: kA_char_func
- Comb, Jac: kA_char_deriv, ttd_u_deriv
- Comb, Jac, Report: ttd_u_func
- Jac, Report: ttd_l_func, ttd_min_func
- Jac: ttd_l_deriv, ttd_min_deriv, eff_max_deriv
- Comb, Jac, Report, Eqn: eff_cold_func, eff_hot_func
- Jac, Eqn: calc_dh_max_hot
- Jac, Comb: eff_max_func
- Comb, Bus, JacBus: bus_func
- Bus, JacBus, Comb: bus_deriv
- Init, Comb: initialise_source, initialise_target
- Cell, Report, Comb: calc_parameters
- Comb, Entropy, Exergy: entropy_balance
- Exergy, Comb: exergy_balance
- Plot: get_plotting_data

### components/heat_exchangers/condenser.py

- CharLoad: component
- Table: get_parameters
- Prep: preprocess
- Eqn: subcooling_func, subcooling_deriv
- DocEq: subcooling_func_doc, kA_func_doc, kA_char_func_doc, ttd_u_func_doc
- Jac, Report: calculate_td_log
- Jac: kA_char_func, ttd_u_func
- Cell, Report: calc_parameters

### components/heat_exchangers/desuperheater.py

- CharLoad: component
- Table: get_mandatory_constraints
- Eqn: saturated_gas_func, saturated_gas_deriv
- DocEq: saturated_gas_func_doc

### components/heat_exchangers/movingboundary.py

- CharLoad: component
- Table: get_parameters
- Mb: _get_h_steps, _get_Q_sections, _assign_sections, _get_T_at_steps, _calc_UA_in_sections, calc_td_pinch
- Mb, Jac: calc_UA, UA_func, UA_deriv, td_pinch_func, td_pinch_deriv
- Mb, Cell: calc_parameters

### components/heat_exchangers/parabolic_trough.py

- CharLoad: component
- Table, Jac: get_parameters
- Solar, Jac, Amb: energy_group_func
- DocEq: energy_group_func_doc
- Jac, Table: energy_group_deriv
- Cell: calc_parameters

### components/heat_exchangers/simple.py

- CharLoad: component
- Table, Amb, Jac: get_parameters
- Plot: inlets, outlets, get_plotting_data
- CompSpec: preprocess
- Report, Eqn: energy_balance_func
- DocEq: energy_balance_func_doc, darcy_func_doc, hazen_williams_func_doc, kA_group_func_doc, kA_char_group_func_doc, bus_func_doc
- Eqn, Table: energy_balance_deriv
- Jac, Report: darcy_func, hazen_williams_func
- Jac, Table: darcy_deriv, hazen_williams_deriv, kA_group_deriv
- Jac, Report, Amb: kA_group_func
- Off, Jac, Report, Amb: kA_char_group_func
- Jac: kA_char_group_deriv
- Bus, JacBus: bus_func, bus_deriv
- Init: initialise_source, initialise_target
- Cell, Report, Plant: calc_parameters
- Entropy: entropy_balance
- Exergy: exergy_balance
- not modelled: `HeatExchangerSimple.__init__` (deprecation warning only)

### components/heat_exchangers/solar_collector.py

- CharLoad: component
- Table, Jac: get_parameters
- Jac, Solar, Amb: energy_group_func
- DocEq: energy_group_func_doc
- Jac, Table, Solar: energy_group_deriv
- Cell, Solar: calc_parameters

### components/nodes/base.py

- Eqn, Step: mass_flow_func, pressure_equality_func
- Step, DocEq: mass_flow_func_doc
- Step, Eqn: mass_flow_deriv
- DocEq: pressure_equality_func_doc
- Eqn: pressure_equality_deriv
- Init: initialise_source, initialise_target
- Branch, Plant: propagate_to_target

### components/nodes/droplet_separator.py

- Table, Plant: get_mandatory_constraints
- Plot: inlets, outlets, get_plotting_data
- Eqn: energy_balance_func, energy_balance_deriv, outlet_states_func
- DocEq: energy_balance_func_doc, outlet_states_func_doc
- Eqn (`droplet_outlet_row`): outlet_states_deriv
- Wrap: propagate_wrapper_to_target
- Init: initialise_source, initialise_target
- not modelled: `DropletSeparator.component` (returns a name)

### components/nodes/drum.py

- Plot: inlets, outlets, get_plotting_data
- Table, Plant, Eqn: get_mandatory_constraints
- Prep: preprocess
- Eqn: mass_flow_func, mass_flow_deriv, energy_balance_func, energy_balance_deriv
- Init: initialise_target
- Wrap: propagate_wrapper_to_target
- Branch, Plant: propagate_to_target
- Exergy, Plant: exergy_balance
- not modelled: `Drum.component` (returns a name)

### components/nodes/merge.py

- Table: get_parameters
- Table, Plant, Eqn: get_mandatory_constraints
- Io, Plot: inlets
- Plot: outlets
- Branch: is_branch_source, is_branch_source
- Eqn: fluid_func, fluid_deriv, energy_balance_func, energy_balance_deriv
- DocEq: fluid_func_doc, energy_balance_func_doc
- Plant, Branch: start_branch, propagate_to_target
- Wrap: propagate_wrapper_to_target
- Exergy: entropy_balance, exergy_balance
- Plot, Exergy: get_plotting_data
- not modelled: `Merge.component` (returns a name)

### components/nodes/separator.py

- Table: get_parameters
- Table, Plant, Eqn: get_mandatory_constraints
- Plant, Branch: is_branch_source, start_branch, propagate_to_target
- Wrap: propagate_wrapper_to_target
- Eqn: fluid_func, fluid_deriv, energy_balance_func, energy_balance_deriv
- DocEq: fluid_func_doc, energy_balance_func_doc
- not modelled: `Separator.component` (returns a name), `Separator.inlets` (constant list, as used in TopoModel and BranchModel), `Separator.outlets` (constant list, as used in TopoModel and BranchModel)

### components/nodes/splitter.py

- Table: get_parameters
- Table, Plant: get_mandatory_constraints
- Plant: inlets
- Io, Plant: outlets
- Wrap: propagate_wrapper_to_target
- Prep: preprocess
- Eqn: energy_balance_func, energy_balance_deriv
- DocEq: energy_balance_func_doc
- not modelled: `Splitter.component` (returns a name)

### components/piping/pipe.py

- CharLoad: component

### components/piping/valve.py

- Table: get_parameters
- Table, Plant: get_mandatory_constraints
- Plot: inlets, outlets, get_plotting_data
- Off, Jac, Eqn: dp_char_func
- DocEq: dp_char_func_doc
- Jac, Eqn: dp_char_deriv
- Init: initialise_source, initialise_target
- Cell, Report: calc_parameters
- Entropy, Exergy: entropy_balance
- Exergy: exergy_balance
- not modelled: `Valve.component` (returns a name)

### components/reactors/fuel_cell.py

- Table: get_parameters
- Table, Plant, Eqn: get_mandatory_constraints
- Prep: preprocess, calc_e0
- Report, Eqn: eta_func, specific_energy_func
- DocEq: eta_func_doc, heat_func_doc, specific_energy_func_doc, energy_balance_func_doc, mass_flow_func_doc, reactor_pressure_func_doc
- Eqn, Table: eta_deriv, specific_energy_deriv, energy_balance_deriv
- Jac, Report: heat_func
- Jac: heat_deriv, reactor_pressure_func, reactor_pressure_deriv
- Plant, Eqn: energy_balance_func
- Eqn, Plant: mass_flow_func
- Eqn: mass_flow_deriv, calc_P
- Branch: is_branch_source, start_branch
- Wrap: start_fluid_wrapper_branch, propagate_wrapper_to_target
- Branch, Plant: propagate_to_target
- Init: initialise_source, initialise_target
- Cell, Report: calc_parameters
- not modelled: `FuelCell.component` (returns a name), `FuelCell.inlets` (constant list, as used in TopoModel and BranchModel), `FuelCell.outlets` (constant list, as used in TopoModel and BranchModel)

### components/reactors/water_electrolyzer.py

- Table, Jac: get_parameters
- Table, Plant, Eqn: get_mandatory_constraints
- Plant: inlets
- Prep: preprocess, calc_e0
- Jac: gas_temperature_func, gas_temperature_deriv, heat_deriv, eta_char_func, reactor_pressure_func
- DocEq: gas_temperature_func_doc, eta_func_doc, heat_func_doc, specific_energy_consumption_func_doc, energy_balance_func_doc, eta_char_func_doc, mass_flow_func_doc, reactor_pressure_func_doc, bus_func_doc
- Report, Eqn: eta_func, specific_energy_consumption_func
- Eqn, Table: eta_deriv, specific_energy_consumption_deriv, energy_balance_deriv
- Jac, Report: heat_func, reactor_pressure_deriv
- Plant, Eqn: energy_balance_func
- Jac, Table: eta_char_deriv
- Eqn, Plant: mass_flow_func
- Eqn: mass_flow_deriv
- JacBus, Eqn: calc_P
- Bus, JacBus: bus_func
- JacBus, Bus: bus_deriv
- Branch: is_branch_source, start_branch
- Wrap: start_fluid_wrapper_branch, propagate_wrapper_to_target
- Branch, Plant: propagate_to_target
- Init: initialise_source, initialise_target
- Cell, Report: calc_parameters
- Exergy: exergy_balance
- not modelled: `WaterElectrolyzer.component` (returns a name), `WaterElectrolyzer.outlets` (constant list, as used in TopoModel and BranchModel)

### components/subsystem.py

- Subsys: __init__, get_attr, create_comps, create_conns

### components/turbomachinery/base.py

- Table: get_parameters
- Plot, Io: inlets
- Io, Plot: outlets
- Report, Eqn: energy_balance_func
- DocEq: energy_balance_func_doc, bus_func_doc
- Eqn, Table: energy_balance_deriv
- Bus, JacBus: bus_func, bus_deriv
- Cell, Report, Plant: calc_parameters
- Comb, Entropy, Exergy: entropy_balance
- Comb, Plot: get_plotting_data
- not modelled: `Turbomachine.component` (returns a name)

### components/turbomachinery/compressor.py

- Table: get_parameters
- Off, Jac, Report, Eqn: eta_s_func
- DocEq: eta_s_func_doc, eta_s_char_func_doc
- Jac, Eqn: eta_s_deriv
- Off, Jac: eta_s_char_func
- Jac: eta_s_char_deriv
- Char, Jac, Eqn, CharLoad: char_map_pr_func
- Jac, Eqn, Table: char_map_pr_deriv
- Char, Jac: char_map_eta_s_func
- Report: char_map_eta_s_func_doc
- Jac, Table: char_map_eta_s_deriv
- Update: convergence_check
- Init: initialise_Source, initialise_target
- Report, Cell: calc_parameters
- Off: check_parameter_bounds
- Exergy: exergy_balance
- not modelled: `Compressor.component` (returns a name), `Compressor.char_map_pr_func_doc` (text of an equation that refers to a figure)

### components/turbomachinery/pump.py

- Table: get_parameters
- Off, Jac, Report, Eqn: eta_s_func
- DocEq: eta_s_func_doc, eta_s_char_func_doc, flow_char_func_doc
- Jac, Eqn: eta_s_deriv
- Off, Jac: eta_s_char_func, flow_char_func
- Jac: eta_s_char_deriv, flow_char_deriv
- Update: convergence_check
- Init: initialise_Source, initialise_target
- Report, Cell: calc_parameters
- Exergy: exergy_balance
- not modelled: `Pump.component` (returns a name)

### components/turbomachinery/steam_turbine.py

- CharLoad: component
- Table: get_parameters
- Prep: preprocess
- Solar, Jac: eta_s_wet_func
- Jac: eta_s_wet_deriv

### components/turbomachinery/turbine.py

- CharLoad: component
- Table: get_parameters
- Off, Jac, Report, Eqn: eta_s_func
- DocEq: eta_s_func_doc, cone_func_doc, eta_s_char_func_doc
- Jac, Eqn: eta_s_deriv, cone_deriv
- Solar, Report: calc_eta_s
- Cone, Jac, Eqn: cone_func
- Off, Jac, CharLoad: eta_s_char_func
- Jac: eta_s_char_deriv
- Update: convergence_check
- Init: initialise_Source, initialise_target
- Cell: calc_parameters
- Exergy: exergy_balance

### connections/bus.py

- Bus, Io, Reg: __init__
- Bus: set_attr, clear_jacobian
- Bus, Reg, Io: add_comps
- Io: _serialize
- Bus, JacBus: solve
- not modelled: `Bus.get_attr` (plain attribute access)

### connections/connection.py

- Io, ConnSpec, Topo, Eqn, Init, …: __init__
- Topo, Io, Eqn: _check_types
- Topo, Io: _check_self_connect, _check_connector_id
- ConnSpec, Io, Fluid, Topo: set_attr
- Io, ConnSpec, Fluid: _fluid_specification
- Io, ConnSpec: _check_fluid_datatypes, _parameter_specification
- Io: get_attr, _serialize, _serializable
- Io, Fluid: _create_fluid_wrapper
- State, VarSpace: preprocess
- State, VarSpace, Plot: simplify_specifications
- VarSpace, Io, State, ConnSpec: get_parameters
- Jac, Update: build_fluid_data
- Eqn: primary_ref_func, primary_ref_deriv, T_ref_func, T_ref_deriv
- Jac: calc_T, T_func, T_deriv
- Jac, Eng: calc_viscosity, calc_vol, calc_T_sat, Td_bp_func
- Eqn, Eng, Jac: v_func, v_deriv
- Eng, Eqn: v_ref_func
- Eqn, Eng: v_ref_deriv, x_func, x_deriv, fluid_balance_func, fluid_balance_deriv
- Eng: calc_x, calc_Td_bp, calc_s, calc_Q
- Eng, Jac: Td_bp_deriv
- Jac, Assembly (rows of the equations in force): solve
- State, Exergy, Eng, RepTex, Mode: calc_results
- Update: check_pressure_bounds, check_enthalpy_bounds, check_two_phase_bounds, check_temperature_bounds
- Exergy: get_physical_exergy
- ChemEx, Exergy: get_chemical_exergy
- Solar, Eng: calc_phase
- Io, State: __init__
- not modelled: `Connection._property_range_message` (text of a log entry), `Ref.get_attr` (plain attribute access)

### networks/network.py

- NetUnits (the units given to it): __init__
- Io: _serialize, export, _create_export_paths, export_network, save_connections, save_components, save_busses, export_connections, export_components, export_busses
- NetUnits, Reg, Topo, Io, Amb, …: set_defaults
- RepTex, NetUnits, Amb, Units: set_attr
- NetUnits: get_attr
- Subsys: add_subsys
- Topo, Print: get_conn
- SpecTab, Topo, Print: get_comp
- SpecTab, Topo, Io: add_conns, _add_comps
- SpecTab, Topo: del_conns, _del_comps
- Topo: check_conns
- Reg: add_ude, del_ude, del_busses, _convergence_check, check_busses
- Reg, Print: add_busses
- Checked, Topo, Branch: check_network
- Branch: create_massflow_and_fluid_branches
- Wrap: create_fluid_wrapper_branches
- Topo, SpecTab, Plant, Reg, Print, …: init_components
- Topo, SpecTab, Doc: check_components
- Mode, VarSpace, Mark, State: initialise
- Fluid, Plant, Eqn: propagate_fluid_wrappers
- Plant, Mass, Mode, Eqn: presolve_massflow_topology
- Plant, Fluid, Eqn, Mode, Update, …: presolve_fluid_topology
- Plant, Mass, Mode, Fluid, Eqn: reset_topology_reduction_specifications
- VarSpace, Mode, State, Doc, Amb, …: init_set_properties
- VarSpace, State, Eqn, Update: _assign_variable_space
- Mode, VarSpace, SpecTab, State, Update, …: init_design
- Mode: init_offdesign_params, init_comp_design_params, init_conn_design_params
- State, RepTex: init_conn_params_from_path
- Mode, VarSpace, State, SpecTab: init_offdesign
- State, Init, Mark: init_properties
- Mark, Assembly: init_count_connections_parameters
- State: init_precalc_properties
- Init, State: init_val0
- State, Mode: init_read_connections
- Fluid, Mode, Cell, State, Solve, …: solve
- Mode, State, Solve, Assembly: solve_loop
- Solve, VarSpace, Assembly, Ude: solve_determination
- Step, Progress: iterinfo_body
- Step: matrix_inversion
- Update, Mode, Cell, Amb: update_variables
- Update: check_variable_bounds, check_connection_properties
- Update, Assembly, Step: solve_control
- Assembly, Plant: solve_components
- Assembly: solve_connections, solve_user_defined_eq
- Bus, Assembly: solve_busses
- Cell, Table, Bus (the functions it calls): postprocessing
- RepTex, Mode, Print, State: process_connections
- Cell, Mode, SpecTab, Print: process_components
- Bus: process_busses
- Print: print_results, print_components
- Dict, Io (the functions it calls): save
- not modelled: `Network.iterinfo_head` (text of a log entry), `Network.iterinfo_tail` (text of a log entry)

### networks/network_reader.py

- Io: load_network, _construct_components, _construct_network, _construct_connections, _construct_busses

### tools/analyses.py

- Analysis: categorize_fluids, __init__, calculate_group_input_value
- Analysis, Sankey, Exergy, ExPrint: analyse
- Analysis, Exergy: evaluate_busses
- Analysis, Sankey, ExPrint, Exergy: create_group_data
- Sankey, Analysis: single_group_input, remove_transit_groups, generate_plotly_sankey_input
- ExPrint: print_results

### tools/characteristics.py

- Char, Io: __init__
- Char, Off: evaluate
- Off: CharLine.get_domain_errors, CharMap.get_domain_errors_x, CharMap.get_domain_errors
- Io, Jac: _serialize
- Jac: plot
- Char, Io, Xref: __init__
- Char, Xref: evaluate_x
- Char: evaluate_y
- Char, CharLoad: evaluate
- Off, Char: get_domain_errors_y
- Io: _serialize
- CharLoad: load_default_char, load_custom_char
- not modelled: `CharLine.get_attr` (plain attribute access), `CharMap.get_attr` (plain attribute access), `CharMap.plot` (drawing)

### tools/data_containers.py

- Io: __init__, get_attr, _serialize
- CompSpec, Io, ConnSpec: set_attr
- CompSpec, Off, Table: ComponentCharacteristics.attr, GroupedComponentProperties.attr
- CompSpec, Io: ComponentCharacteristics._serialize, ComponentCharacteristicMaps._serialize, ComponentProperties._serialize, SimpleDataContainer._serialize
- CompSpec, Cell, Off, Table: attr
- CompSpec, Amb, Table, Eqn, Bus: attr
- Io, CompSpec: _serializable_keys
- Jac, Io, Eqn, CompSpec, Off, …: attr
- Io, ConnSpec: FluidComposition._serialize, ReferencedFluidProperties._serialize
- CompSpec, Mode, Table: attr
- Mode, VarSpace, Io, Eqn, ConnSpec, …: attr
- Mode, Io: _serialize
- Doc, Io, ConnSpec, Off, State: attr
- CompSpec, Io, Table: attr
- not modelled: `DataContainer.attr` (table of attribute names, as used in IoModel)

### tools/document_models.py

- Xref, Doc: document_model, document_ude, get_component_mandatory_constraints, create_latex_CharMap
- Doc: set_defaults, data_to_df, place_figures
- Mark, Doc: document_connections
- Mark, RepTex, Doc: document_connection_params
- DocEq, Mark: document_connection_fluids
- DocEq: document_connection_ref
- SpecTab: document_components
- SpecTab, Xref, Doc: get_component_specifications
- Xref, DocEq, Doc: document_busses
- RepTex: create_latex_table
- Xref: create_latex_figure, generate_latex_eq
- Doc, Xref: create_latex_CharLine
- SpecTab, Xref: get_char_specification
- not modelled: `document_software_info` (fixed text)

### tools/fluid_properties/functions.py

- Jac, Ph: isentropic, viscosity_mix_ph
- Exergy: calc_physical_exergy
- ChemEx: calc_chemical_exergy
- Jac, Ph, State, Mix: T_mix_ph
- Jac, Mix, State: dT_mix_pdh, dT_mix_ph_dfluid
- Jac, State: dT_mix_dph
- Jac, Mix, State, Exergy: h_mix_pT
- Jac, Mix, State, Eng: h_mix_pQ, T_sat_p
- Mix, State, Eng: dh_mix_dpQ, Q_mix_ph, phase_mix_ph, p_sat_T
- Jac, State, Eng: dT_sat_dp
- Ph, State: s_mix_ph
- Ph, Exergy: s_mix_pT
- Ph: T_mix_ps, v_mix_pT
- Jac, Ph, State: v_mix_ph
- Jac, Ph, Eng: dv_mix_dph
- Jac, Mix, Ph: dv_mix_pdh
- Ph, Mix: viscosity_mix_pT

### tools/fluid_properties/helpers.py

- Mix, Mode, Branch, Dict: _is_larger_than_precision
- Dict, Mode, Mix, Branch: _check_mixing_rule
- Mix, Mode, Update: get_number_of_fluids, get_pure_fluid
- Mode, Mix, Update, Dict, Opt, …: single_fluid
- Mode, Mix, Dict, Opt: get_molar_fractions
- Mix, Mode, Ph, Units, State: inverse_temperature_mixture
- Mix, Units, Mode, State: get_mixture_temperature_range
- Mix, Units, State: calc_molar_mass_mixture
- Units, State: fluid_structure
- Xref, Jac, Report, RepTex, Ude: darcy_friction_factor
- Report: blasius, hanakov, prandtl_karman
- Report, Ude: prandtl_karman_derivative, colebrook

### tools/fluid_properties/mixtures.py

- Mix: h_mix_pT_ideal, h_mix_pT_ideal_cond, h_mix_pT_forced_gas, h_mix_pT_incompressible, s_mix_pT_ideal, s_mix_pT_ideal_cond, s_mix_pT_incompressible, v_mix_pT_ideal, v_mix_pT_ideal_cond, v_mix_pT_incompressible, viscosity_mix_pT_ideal, viscosity_mix_pT_incompressible, _water_in_mixture, cond_check
- ChemEx: exergy_chemical_ideal_cond

### tools/fluid_properties/wrappers.py

- Io: wrapper_registry
- Mix, Eng: FluidPropertyWrapper.__init__, FluidPropertyWrapper._not_implemented, FluidPropertyWrapper.isentropic, FluidPropertyWrapper._is_below_T_critical, FluidPropertyWrapper._make_p_subcritical, FluidPropertyWrapper.T_ph, FluidPropertyWrapper.T_ps, FluidPropertyWrapper.h_pT, FluidPropertyWrapper.h_QT, FluidPropertyWrapper.s_QT, FluidPropertyWrapper.T_sat, FluidPropertyWrapper.p_sat, FluidPropertyWrapper.Q_ph, FluidPropertyWrapper.phase_ph, FluidPropertyWrapper.d_ph, FluidPropertyWrapper.d_pT, FluidPropertyWrapper.d_QT, FluidPropertyWrapper.viscosity_ph, FluidPropertyWrapper.viscosity_pT, FluidPropertyWrapper.s_ph, FluidPropertyWrapper.s_pT, IAPWSWrapper.T_sat, IAPWSWrapper.p_sat
- Update: __init__
- Mix, Update, Eng: _set_constants, _is_below_T_critical, _make_p_subcritical
- Update, Eng: get_T_max, isentropic
- Update, Eng, Ph: T_ph
- Ph, Update, Eng: T_ps, h_pQ, h_ps, h_pT, h_QT, s_QT, d_ph, d_pT, d_QT, viscosity_ph, viscosity_pT, s_ph, s_pT
- Mix, Ph, Update, Eng: T_sat, p_sat
- Update, Ph, Solar, Eng: Q_ph, phase_ph
- Eng, Ph: __init__
- Mix (`w_below`): _is_below_T_critical
- Mix: _make_p_subcritical
- Eng: IAPWSWrapper.isentropic, IAPWSWrapper.T_ph, IAPWSWrapper.T_ps, IAPWSWrapper.h_pQ, IAPWSWrapper.h_ps, IAPWSWrapper.h_pT, IAPWSWrapper.h_QT, IAPWSWrapper.s_QT, IAPWSWrapper.Q_ph, IAPWSWrapper.phase_ph, IAPWSWrapper.d_ph, IAPWSWrapper.d_pT, IAPWSWrapper.d_QT, IAPWSWrapper.viscosity_ph, IAPWSWrapper.viscosity_pT, IAPWSWrapper.s_ph, IAPWSWrapper.s_pT, PyromatWrapper.__init__, PyromatWrapper.isentropic, PyromatWrapper.T_ph, PyromatWrapper.T_ps, PyromatWrapper.h_pT, PyromatWrapper.T_ph, PyromatWrapper.T_ps, PyromatWrapper.h_pT, PyromatWrapper.h_ps, PyromatWrapper.d_ph, PyromatWrapper.d_pT, PyromatWrapper.s_ph, PyromatWrapper.s_pT, PyromatWrapper.h_QT, PyromatWrapper.s_QT, PyromatWrapper.T_boiling, PyromatWrapper.p_boiling, PyromatWrapper.Q_ph, PyromatWrapper.d_QT
- not modelled: `SerializableAbstractState.__init__` (CoolProp object), `SerializableAbstractState.__reduce__` (CoolProp object), `IAPWSWrapper._set_constants` (constants of the library), `PyromatWrapper._create_AS` (library object), `PyromatWrapper._set_constants` (constants of the library)

### tools/helpers.py

- Mode, Branch, Dict, Mix: get_all_subdictionaries
- ChemEx, Mode, Mix, Update: get_chem_ex_lib
- Mode, Comb, Update: fluidalias_in_list
- Dict, Mode, Opt, Update, Mix: merge_dicts
- Units, State, Mix, Mode, Ph: convert_to_SI
- Units, State: convert_from_SI
- RepTex: latex_unit
- Ude, Xref, Report, Jac: __init__
- Ude: solve, numeric_deriv
- NumDeriv, Bus, Jac: _numeric_deriv
- Bus: bus_char_evaluation, bus_char_derivative
- Newton, Bus: newton_with_kwargs
- NumDeriv, Mix: central_difference
- Log: get_basic_path, extend_basic_path

### tools/logger.py

- Log: __call__, increment_stacklevel, log, debug, info, warning, error, exception, critical, progress, result, add_console_logging, add_file_logging, define_logging, get_version, check_git_branch
- not modelled: `FutureWarningHandler.__init__` (standard logging object), `get_logger` (standard logging object), `check_version` (version of the installed package)

### tools/optimization.py

- Opt, Dict: __init__
- Opt: collect_constraints, fitness, get_nobj, get_nic, get_bounds, _process_generation_data, run

## Axioms of each theorem

From the output of `Print Assumptions` beneath each theorem in the `*Props.v` files.

Closed under the global context — 724 theorems:

C01_monotone, C01_physical, C01_roundtrip_SI_user_SI, C01_roundtrip_user_SI_user, C01_scaling,
C01_temperature_difference, C01_unsupported_is_error, C02_range_read_back, C02_set_attr_success,
C02_units_always_supported, C03_clamped_above, C03_clamped_below, C03_constructor, C03_continuous,
C03_extrapolate, C03_monotone, C03_range, C03_segment, C03_through_points, C03_total,
C04_constructed_maps_are_ok, C04_left_border, C04_range, C04_right_border, C04_speedline, C04_through_nodes,
C04_total, C05_map_unchanged_igva0_partial, C05_map_unchanged_inside_partial, C05_map_unchanged_refuted,
C06_affine_exact, C06_terminates_in_bounds, C07_max_iter_honoured_refuted, C07_max_iter_usable_refuted,
C07_returned_value_converged_refuted, C07_small_limit_honoured_partial, C09_last_call_wins,
C09_last_reference_wins, C09_other_attributes, C09_references, C09_starting_values, C09_unknown_iff_unset,
C09_values, C10_none_accepted, C10_none_unsets, C11_consistent, C11_engines, C11_fluids_after_history,
C11_names, C12_columns, C12_equation_count, C12_frame, C12_group_iff_complete, C12_preprocess_frame,
C12_specification_in_force, C12_variables_are_specified, C13_added, C13_get_conn, C13_labels_unique,
C13_removed, C13_unknown, C14_components_mirror_connections, C14_get_comp, C15_checks_iff_fully_connected,
C15_port_lists, C16_branches, C16_check_frame, C16_fluid_branches, C16_terminates, C17_accepts,
C17_one_container_per_branch, C18_repeated_solves, C18_solve_keeps_specifications, C19_accepts,
C19_composition, C19_propagate, C19_propagate_outcome, C20_columns_distinct, C20_error_only_overspecified,
C20_every_unknown_one_column, C20_overspecified_rejected, C21_equation_without_unknown_singular,
C21_every_row_has_an_owner, C21_no_stale_entries, C21_row_owner_unique, C21_rows_of_one_iteration,
C21_rows_within_component, C22_determined_solved, C22_undetermined_rejected, C23_converged_sound,
C23_postprocessing_condition, C23_stops_at_first_success, C23_unconverged_reason, C24_fixed_values_fixed,
C24_update_ranges, C25_mass_flow_in_range, C25_mass_flow_nearest, C25_mixture_in_range, C25_mixture_nearest,
C25_only_unknowns_changed, C25_temperature_nothing, C25_temperature_range, C26_fixed_fractions_kept,
C26_no_negative_fraction, C26_sum_is_one, C31_merge_mass, C36_elements, C36_mass, C36_species,
C36_thermal_input, C37_combustion_chamber, C37_compressor, C37_drum, C37_efficiency, C37_entropy_drum,
C37_entropy_heat_exchanger, C37_entropy_merge, C37_entropy_turbomachine, C37_entropy_valve, C37_heat_exchanger,
C37_merge, C37_split, C37_terminals, C37_turbine, C37_valve, C38_accepted, C38_aggregation, C38_closed,
C39_condensation, C39_dispatch_mixture, C39_dispatch_pure, C39_enthalpy, C39_entropy, C39_forced_gas,
C39_ideal, C39_ideal_gas, C39_incompressible, C39_molar_fractions, C39_no_condensation, C39_rules,
C39_viscosity, C40_component_load, C40_constant_efficiency, C40_design_point, C40_jacobian,
C40_jacobian_central, C40_residual, C41_export_import, C42_back_component, C42_back_connection,
C42_component_flags, C42_connection_flags, C42_references, C42_variables, C43_keys,
C43_raises_exactly_on_conflict, C43_values, C44_component_frame, C44_component_once, C44_component_settings,
C44_frame, C44_labels_unique, C44_membership, C45_rejected_set_attr_changes_nothing_refuted,
C45_rejected_unit_frame_partial, C47_both_only_if_given_partial, C47_one_specification_refuted,
C48_nan_unsets_refuted, C49_composition_replaced_refuted, C50_accepted_keyword_has_effect_refuted,
C51_del_keeps_tables_in_step_refuted, C51_rejected_add_keeps_tables_in_step_refuted, C51_rejected_add_partial,
C52_branches, C52_merged, C53_every_connection_in_a_branch_partial, C53_every_connection_in_a_branch_refuted,
C54_bus_leaves_other_results_partial, C54_bus_leaves_other_results_refuted, C55_port_order_refuted,
C56_raising_solve_keeps_specifications_refuted, C56_solver_exception_refuted,
C57_fixed_composition_sums_to_one_partial, C57_fixed_composition_sums_to_one_refuted,
C58_solve_keeps_fluid_specifications_partial, C58_solve_keeps_fluid_specifications_refuted,
C58_specifications_independent_refuted, C58_starting_values_refuted, C59_engine_refuted,
C59_mixing_rule_refuted, C60_asked, C60_network_asked, C60_network_balance, C60_presolve_keeps_balance,
C61_equation_kept_partial, C61_equation_without_unknown_lost_refuted, C62_single_iteration_refuted,
C62_two_small_residuals_partial, C63_reported_values_refuted, C63_residual_before_last_update_partial,
C64_abort_condition, C64_no_abort_while_falling, C64_standstill_stopped, C65_late_iteration_refuted,
C65_network_range_refuted, C66_enthalpy_partial, C66_limits_partial, C66_negative_upper_limit_refuted,
C66_pressure_partial, C66_pure_pressure_partial, C66_search_ends, C66_two_phase_refuted, C67_all_zero_refuted,
C67_new_sum_partial, C67_specified_fraction_refuted, C73_fuel_cell_refuted, C79_power_kept_partial,
C79_power_kept_refuted, C80_bus_load_refuted, C81_electrolyzer_refuted, C81_engine_refuted,
C82_after_exception_refuted, C82_second_run_partial, C82_second_run_refuted, C83_any_component_refuted,
C83_reported_zero_partial, C84_fuel_rich_partial, C84_fuel_rich_refuted, C84_negative_refuted,
C85_energy_columns_refuted, C85_mass_columns_partial, C86_diabatic_reported, C86_engine_reported,
C86_engine_shares, C86_load, C87_accepted_partial, C87_aliases_partial, C87_aliases_refuted,
C87_complete_partial, C87_rejected_partial, C88_checks_frame, C88_checks_normalised, C88_fractions,
C89_normalised_refuted, C90_unbound_partial, C90_unbound_refuted, C91_ti_row, C92_heating_value,
C92_heating_value_positive, C93_cooling_refuted, C93_heating_refuted, C93_pressure_refuted, C93_simple_partial,
C94_ambient_merge_partial, C94_reported_refuted, C95_electrolyzer_refuted, C96_engine_heat_refuted,
C96_engine_mechanical_refuted, C96_engine_partial, C96_parts_partial, C97_balances_always,
C97_balances_refuted, C97_meant_partial, C97_single_partial, C98_groups_partial, C98_groups_refuted,
C99_base_refuted, C100_message_partial, C100_message_refuted, C101_categories_refuted, C101_nan_shares_refuted,
C102_range, C102_roundtrip, C103_range_partial, C103_range_refuted, C104_volume_partial, C104_volume_refuted,
C105_names_partial, C105_names_refuted, C106_rules_partial, C106_rules_refuted, C107_quotient_partial,
C107_restored_partial, C107_restored_refuted, C108_quotient_partial, C108_start_partial, C108_start_refuted,
C109_iapws_refuted, C109_incompressible_always, C109_limit_partial, C109_monotone_refuted,
C110_mass_flow_refuted, C111_reference_refuted, C112_values_partial, C112_values_refuted, C113_design_values,
C114_failed_refuted, C114_local_refuted, C114_mass_flow_refuted, C114_missing_refuted,
C115_component_path_refuted, C115_connection_value_refuted, C115_local_design_refuted,
C115_local_offdesign_off_refuted, C116_reference_refuted, C117_local_design_component,
C117_local_design_connection, C117_local_offdesign_component, C117_local_offdesign_connection,
C118_bus_refuted, C118_fluid_start_refuted, C118_group_refuted, C118_local_offdesign_refuted,
C118_reference_activated_refuted, C118_units_refuted, C118_user_equations_refuted, C119_missing_attribute,
C119_set_fluid_after_import_refuted, C119_set_fluid_always_fails, C119_set_fluid_partial,
C120_foreign_bus_refuted, C120_label_P_refuted, C120_line_for_map_refuted, C120_no_connection_refuted,
C120_unregistered_refuted, C121_save_over_export_refuted, C121_stale_busses_refuted, C121_stale_class_refuted,
C122_component_design_path, C122_component_fields, C122_component_keywords, C122_connection_keywords,
C122_label_protected, C123_keywords_before_partial, C123_rejected_call_changes_nothing_refuted,
C123_rejected_reference_refuted, C124_accounted, C124_balance, C124_reported, C125_accounted_partial,
C125_offdesign_refuted, C125_unit_refuted, C126_reference_refuted, C127_reported, C128_file_units_refuted,
C129_proposed, C129_restart, C129_user_value, C130_range_partial, C130_unit_refuted, C131_liquid_partial,
C131_liquid_refuted, C131_vapour_partial, C131_vapour_refuted, C132_lost_refuted, C132_mixture_refuted,
C132_reported_partial, C132_stale_refuted, C133_at_most_three_partial, C133_refuted, C134_units_refuted,
C135_conflict_refuted, C135_engine_partial, C135_not_propagated_refuted, C136_decision_variables,
C137_constraints, C138_valid_partial, C138_valid_refuted, C139_names_refuted, C139_variables_refuted, C140_run,
C141_sections, C142_pinch, C143_reversed_refuted, C143_smallest_partial, C143_smallest_refuted,
C151_own_partial, C153_kept, C153_made, C153_rejected, C153_remapped, C153_texts, C153_unknown,
C154_apart_partial, C154_disjoint_refuted, C155_engine_refuted, C156_absolute, C156_design,
C156_exchanger_design, C156_package_lines, C156_pump_design, C156_pump_off_design, C156_relative,
C156_simple_exchanger_design, C156_turbine_design, C156_turbine_off_design, C157_between, C157_package_lines,
C157_resistances, C157_simple, C158_checked_partial, C158_flow_refuted, C159_nonzero_partial,
C159_zero_refuted, C160_default_partial, C160_turbine_refuted, C161_reported, C161_total, C162_message_refuted,
C162_range_partial, C162_single_refuted, C163_changed_refuted, C163_inside_partial, C163_outside_partial,
C163_single_refuted, C164_zero_refuted, C168_closed, C168_flows, C168_gone, C168_nodes, C168_terminates,
C169_colour, C169_default_colour, C169_links, C169_missing, C169_total, C170_threshold_partial,
C170_threshold_refuted, C171_negative_refuted, C172_aggregate_refuted, C172_ignored, C173_self_refuted,
C175_bus_nodes, C176_group_flows, C177_inlets, C177_outlets, C177_separator_outlets, C177_start,
C178_exchanger_pressures_refuted, C178_exchanger_proposals_partial, C178_separator_outlets_refuted,
C178_turbomachine_outlets_partial, C178_turbomachine_outlets_refuted, C179_added, C179_as_connections,
C179_components, C180_component_labels, C180_connection_labels, C180_default_labels,
C180_default_labels_unique, C180_other_objects, C180_subsystem_labels, C181_default_labels_refuted,
C181_subsystem_commas_refuted, C182_branch, C182_history, C183_export, C183_load, C184_flow, C184_pure,
C185_complete, C185_condensed, C185_gas, C185_mixing, C186_missing_refuted, C186_table_refuted,
C187_negative_refuted, C187_trace_refuted, C188_isentropic, C188_ph, C188_single, C203_bus, C203_bus_hidden,
C203_colours, C203_component, C203_connection, C203_prints, C204_errors_partial, C204_unsolved_partial,
C204_unsolved_refuted, C205_bus_refuted, C208_history, C209_engines, C210_p_sat_partial, C210_p_sat_refuted,
C210_phases_always, C211_Td_bp_always, C211_Td_bp_partial, C211_full_partial, C211_missing_refuted,
C211_offered_partial, C211_refusal_partial, C211_reported_partial, C211_unknown_partial, C211_x_always,
C211_x_partial, C212_fraction, C212_iapws, C212_iapws_rejected, C212_plain, C212_several, C213_mixtures_always,
C213_mixtures_refuted, C213_single_partial, C214_figures, C214_rows, C215_bold, C215_component_inputs,
C215_component_results, C215_components, C215_equations, C215_inputs, C215_marks, C215_selected,
C215_specified, C216_all_partial, C216_references_refuted, C217_component_partial, C217_folder_refuted,
C217_others_partial, C218_columns_partial, C218_selection_refuted, C218_untold_partial, C220_classes,
C220_drum, C220_index, C220_inlets, C220_keys, C220_lines, C220_nodes, C220_nothing, C220_outlets, C220_valve,
C221_exception, C221_levels, C221_log, C221_messages, C221_numbers, C221_progress, C222_extra_refuted,
C222_one_limit_refuted, C223_category_refuted, C223_place_always, C223_warning_partial, C224_announces,
C224_defaults, C224_rotation, C224_rotation_default, C224_setup, C224_succeeds, C224_version,
C224_version_installed, C224_version_packed, C225_date_refuted, C225_home_refuted, C225_submodule_always,
C225_twice_refuted, C226_all, C226_custom, C226_custom_file, C226_custom_name, C226_unit, C227_map_always,
C227_map_refuted, C227_subclass_refuted, C227_tables, C228_compressor_h, C228_compressor_keeps,
C228_compressor_p, C228_pump_h, C228_pump_keeps, C228_pump_p, C228_pump_range, C228_turbine_h,
C228_turbine_keeps, C228_turbine_p, C229_compressor_refuted, C229_pump_flow_refuted, C229_pump_outlet_refuted,
C229_turbine_inlet_refuted, C229_turbine_refuted, C230_after_change, C230_complete, C230_repeated, C230_solve,
C230_sound, C231_failed_deletion_refuted, C232_exchanger, C232_flow, C232_pressure_drop, C232_pump,
C232_turbine, C233_bus, C233_chars, C233_comb_energy, C233_comb_mass, C233_engine_chars, C233_engine_energy,
C233_expression, C233_kA_char, C233_stoichiometry, C233_ti, C233_turbine_char, C234_lambda_partial,
C234_lambda_refuted, C234_rich_refuted, C235_component_partial, C235_component_refuted, C235_empty_always,
C235_partial, C236_fixed_point, C236_increments, C236_linear, C236_linear_system, C236_mass, C236_singular,
C237_partial, C237_refuted, C238_groups, C238_nan, C238_total, C239_pairs, C239_prepares, C239_rows,
C240_covered_partial, C240_ignored_always, C240_partial, C240_refuted, C241_only_partial, C241_partial,
C241_ratio_always, C241_refuted, C241_singular_always, C241_unwritten_always, C242_ordered_partial,
C242_outside_always, C242_partial, C242_refuted, C243_again, C243_engine, C243_reactor, C244_energy,
C245_missing_always, C245_refuted, C246_default, C246_switch, C246_value, C247_refuted, C248_steam, C249_load,
C250_cells, C250_power, C251_inputs_partial, C251_overwritten_always, C251_partial, C251_refuted, C252_refuted,
C252_stale_always, C253_history, C253_results, C253_system, C254_boiling_refuted, C254_flow_refuted,
C255_fixed, C255_history, C255_kept, C255_system, C256_flow_refuted, C256_temperature_refuted, C257_foreign,
C257_incomplete, C257_results, C257_specifications, C258_figures_refuted, C258_listed_refuted,
C258_report_partial, C258_written_always, C258_written_refuted, C259_printed, C260_small_refuted, C261_order,
C261_results, C261_system, C262_raise_refuted, C262_start_refuted, C263_references, C263_shared,
C264_equations, C264_figures, C265_busses_refuted, C265_equation_refuted, C265_spaces_refuted,
C265_totals_refuted, C266_apart, C266_units, C267_ampersand_refuted, C267_changed_refuted, C267_file_refuted,
C267_header_partial, C267_label_refuted, C267_percent_refuted, C267_row_partial, C268_ambient, C268_units,
C269_constant_always, C269_variable_refuted, C270_composition, C270_fuel, C270_inlets, C270_outlet,
C271_order_always, C271_order_refuted, C271_range_refuted, C272_fluid, C272_given_is_marked, C272_mass_flow,
C273_fluid_refuted, C273_mass_flow_refuted, C274_first_connection, C274_values_stay, C275_later_always,
C275_later_refuted, C275_new_fluid_refuted, C275_other_connection_refuted.

Uses `ClassicalDedekindReals.sig_forall_dec` (Coq standard library) — 18 theorems:

C30_component_variables, C30_connections, C30_drum, C30_nodes, C31_merge_fluids, C31_node_pressure,
C31_separator_fluids, C69_pressure_ratio_refuted, C70_temperature_filtered_partial, C72_separator_partial,
C72_separator_refuted, C73_merge_refuted, C151_shared_refuted, C233_gas_T, C233_power, C233_ratio,
C233_saturation, C233_ttd.

Uses `ClassicalDedekindReals.sig_forall_dec`, `FunctionalExtensionality.functional_extensionality_dep` (Coq standard library) — 234 theorems:

C08_affine_exact, C08_fluid_affine_exact, C08_state_restored, C27_drum_mass, C27_electrolyzer_mass,
C27_fuel_cell_mass, C27_merge_mass, C27_merge_species, C27_node_mass, C27_separator_last_species,
C27_separator_species, C28_droplet_outlets, C28_droplet_separator, C28_drum, C28_electrolyzer, C28_fuel_cell,
C28_heat_exchanger, C28_merge, C28_power_and_heat, C28_separator, C28_splitter, C28_valve, C29_char_map_entry,
C29_cone_entry, C29_droplet_energy, C29_droplet_outlet, C29_drum_energy, C29_drum_mass, C29_eff_cold_entry,
C29_eff_hot_entry, C29_electrolyzer_efficiency, C29_electrolyzer_energy, C29_electrolyzer_mass,
C29_equality_rows, C29_fuel_cell_efficiency, C29_fuel_cell_energy, C29_fuel_cell_mass,
C29_heat_exchanger_energy, C29_heat_exchanger_heat, C29_kA_entry, C29_merge_energy, C29_merge_fluid,
C29_node_mass, C29_node_pressure, C29_power_and_heat, C29_pressure_difference, C29_pressure_ratio,
C29_pump_eta_entry, C29_quality_entry, C29_reference, C29_saturation_entry, C29_separator_energy,
C29_separator_fluid, C29_specific_energy, C29_splitter_energy, C29_turbine_eta_entry,
C29_valve_dp_char_entries, C29_volume_flow_entry, C29_volume_flow_reference_entries, C30_components,
C30_reactor_mass, C31_electrolyzer, C31_fuel_cell, C32_effectiveness, C32_effectiveness_max,
C32_isentropic_efficiency, C32_power_and_heat, C32_pressure, C32_reactors, C32_terminal_differences,
C46_fluid_affine_exact_refuted, C46_fluid_slope_below_step_partial, C46_restored_when_raising_refuted,
C68_heat_exchanger_partial, C68_heat_exchanger_refuted, C68_merge_refuted, C69_air_ratio_refuted,
C69_combustion_efficiency_refuted, C69_fuel_cell_efficiency_refuted, C69_heat_refuted,
C69_moving_boundary_refuted, C69_outlet_index_refuted, C69_pump_efficiency_refuted,
C69_temperature_difference_refuted, C69_wet_expansion_partial, C70_fluid_balance_partial,
C70_fluid_balance_refuted, C70_temperature_reference_partial, C70_temperature_reference_refuted,
C71_stale_entry_refuted, C73_fuel_cell_count_refuted, C74_electrolyzer_refuted, C74_separator_refuted,
C147_collector, C147_entry, C148_cold_partial, C148_cold_refuted, C149_expansion, C149_saturated,
C149_wet_worse, C150_hot_refuted, C150_moderate_partial, C150_negative_refuted, C152_name_refuted,
C152_named_partial, C152_other_names_partial, C174_effectiveness_cold, C174_effectiveness_hot,
C174_electrolyzer, C174_fractions, C174_fuel_cell, C174_kA, C174_map_pressure, C174_pressure_drop,
C174_pressure_ratio, C174_pump_efficiency, C174_quality, C174_reference, C174_saturation, C174_specific_energy,
C174_temperature_reference, C174_turbine_efficiency, C174_valve, C174_volume_flow, C174_volume_reference,
C189_Qchar, C189_Qloss, C189_T, C189_UA, C189_comb, C189_comb_mass, C189_comb_pressure, C189_cond_ttd_u,
C189_eff_cold, C189_eff_hot, C189_eff_max, C189_el_char, C189_el_heat, C189_el_pressure, C189_engine,
C189_engine_Q, C189_fc_heat, C189_fc_pressure, C189_gas_T, C189_lambda, C189_pump, C189_pump_char,
C189_pump_flow, C189_solar, C189_stoich, C189_superheating, C189_td_pinch, C189_tiP, C189_ttd_l, C189_ttd_min,
C189_ttd_u, C189_turbine, C189_turbine_char, C189_valve, C189_vol, C189_wet, C190_efficiency_refuted,
C190_temperature_refuted, C190_volumetric_flow_refuted, C191_electrolyser_refuted, C191_valve_refuted,
C192_engine_refuted, C193_plant_mass, C193_reported, C193_single_closer, C193_without_closer, C194_cycle,
C194_plant_energy, C194_without_closer, C195_plant_species, C196_any_imbalance, C196_cycle_closer_refuted,
C197_drum_species_refuted, C198_fuel_cell_excess, C198_fuel_cell_refuted, C198_positive_power_partial,
C200_connection, C200_effectiveness, C200_electrolyzer_char, C200_engine, C200_gases, C200_heat, C200_lambda,
C200_pump, C200_pump_char, C200_pump_flow, C200_solar, C200_terminal_differences, C200_thermal_input,
C200_turbine, C200_turbine_char, C200_valve, C219_columns, C219_meaning, C219_row, C233_balance,
C233_collector, C233_connections, C233_droplet, C233_el_char, C233_el_mass, C233_enthalpies, C233_eta_s,
C233_fc_energy, C233_hx_energy, C233_merge_energy, C233_merge_fluid, C233_node_mass, C233_node_pressure,
C233_outlets, C233_pressures, C233_pressures_comb, C233_pressures_reactor, C233_quality, C233_reactors,
C233_separator_T, C233_splitter, C234_Td_bp_partial, C234_Td_bp_refuted, C234_el_energy_partial,
C234_el_energy_refuted, C234_engine_Q_partial, C234_engine_Q_refuted, C234_fc_mass_partial,
C234_fc_mass_refuted, C234_ref_partial, C234_ref_refuted, C234_separator_partial, C234_separator_refuted.

Uses `ClassicalDedekindReals.sig_forall_dec`, `ClassicalDedekindReals.sig_not_dec`, `FunctionalExtensionality.functional_extensionality_dep` (Coq standard library) — 39 theorems:

C32_zeta, C34_darcy_direction, C34_darcy_unique, C34_negligible_flow, C34_zeta_direction, C34_zeta_monotone,
C34_zeta_unique, C75_zeta_reversed_partial, C75_zeta_reversed_refuted, C75_zeta_small_flow_refuted,
C165_design, C165_ellipse, C165_monotone, C166_reverse_refuted, C167_documentation_partial,
C167_documentation_refuted, C189_cone, C189_darcy, C189_map_eta, C189_map_pr, C189_zeta,
C190_pressure_loss_refuted, C199_covers, C199_fluid_deviation, C199_total, C199_unknown_fluid,
C200_compressor_map, C200_cone, C200_darcy, C200_zeta, C206_exchanger_sum, C206_sum, C207_adiabatic,
C207_no_flow, C233_zeta, C234_cone_partial, C234_cone_refuted, C234_darcy_partial, C234_darcy_refuted.

Uses `ClassicalDedekindReals.sig_forall_dec`, `ClassicalDedekindReals.sig_not_dec`, `Classical_Prop.classic`, `FunctionalExtensionality.functional_extensionality_dep` (Coq standard library) — 77 theorems:

C08_fluid_mean_value, C08_mean_value, C08_property_functions, C32_kA, C32_simple_kA, C33_exchanger_crossed,
C33_exchanger_defined, C33_exchanger_mean, C33_mean_unique, C33_simple_above, C33_simple_below,
C33_simple_opposite, C35_factor_positive, C35_factor_well_posed, C35_rough_unique, C35_smooth_derivative,
C35_smooth_increasing, C35_smooth_unique, C69_heat_transfer_refuted, C75_kA_nan_refuted, C76_condenser_partial,
C76_condenser_refuted, C76_simple_inlet_refuted, C76_simple_refuted, C77_exchanger_lower_always,
C77_exchanger_refuted, C77_simple_partial, C77_simple_refuted, C78_direction_refuted, C78_reversed_partial,
C78_reversed_refuted, C78_two_solutions_partial, C141_mismatch, C144_UA, C145_cross_refuted,
C146_more_flow_refuted, C146_no_flow_always, C146_same_regime_partial, C147_trough, C148_grazing_refuted,
C148_more_sun_partial, C189_cond_kA, C189_cond_kA_char, C189_hw, C189_kA, C189_kA_char, C189_kA_char_group,
C189_kA_group, C189_trough, C200_hazen_williams, C200_kA, C200_kA_char, C200_kA_char_group, C200_kA_group,
C200_small_flow, C200_trough, C201_antitone, C201_complete, C201_range, C201_start, C202_nan_refuted,
C206_defined, C206_exchanger, C206_machine, C206_mean, C206_signs, C206_throttle, C207_adiabatic_refuted,
C233_kA, C233_kA_condenser, C233_trough, C234_hw_backward, C234_hw_backward_printed, C234_hw_partial,
C234_hw_refuted, C234_simple_kA_partial, C234_simple_kA_refuted.
