(** Characteristic lines delivered with the package, /repo/src/tespy/data/char_lines.json,
    as lists of points (x, y). Only the lines of efficiencies and heat transfer
    coefficients, which are relative to design. *)
From Verif Require Export CharModel.
Open Scope Q_scope.

(** char_lines.json: "turbine", "eta_s_char", "DEFAULT". *)
Definition line_turbine_eta_s_char : list (Q * Q) :=
  [(0#1000, 950#1000); (300#1000, 980#1000); (600#1000, 993#1000); (700#1000, 996#1000);
   (800#1000, 998#1000); (900#1000, 9995#10000); (1000#1000, 1000#1000); (1100#1000, 999#1000);
   (1200#1000, 996#1000); (1300#1000, 990#1000); (1400#1000, 980#1000); (1500#1000, 960#1000)].
(** char_lines.json: "turbine", "eta_s_char", "TRAUPEL". *)
Definition line_turbine_eta_s_char_traupel : list (Q * Q) :=
  [(0#10000, 0#10000); (1905#10000, 3975#10000); (3810#10000, 6772#10000); (5714#10000,
   8581#10000); (7619#10000, 9593#10000); (9524#10000, 9985#10000); (10000#10000, 10000#10000);
   (11429#10000, 9875#10000); (13333#10000, 9357#10000); (15238#10000, 8464#10000);
   (17143#10000, 7219#10000); (19048#10000, 5643#10000)].
(** char_lines.json: "compressor", "eta_s_char", "DEFAULT". *)
Definition line_compressor_eta_s_char : list (Q * Q) :=
  [(49#100, 78#100); (55782#100000, 82066#100000); (62612#100000, 86025#100000); (69418#100000,
   89742#100000); (76132#100000, 93083#100000); (82682#100000, 95914#100000); (89#100,
   981#1000); (95016#100000, 99507#100000); (1, 10#10); (104326#100000, 99733#100000);
   (107753#100000, 98913#100000); (110916#100000, 97496#100000); (113795#100000, 95435#100000);
   (116365#100000, 92687#100000); (118604#100000, 89205#100000); (12049#10000, 84944#100000);
   (122#100, 79859#100000)].
(** char_lines.json: "pump", "eta_s_char", "DEFAULT". *)
Definition line_pump_eta_s_char : list (Q * Q) :=
  [(71#1000, 250#1000); (282#1000, 547#1000); (635#1000, 900#1000); (776#1000, 965#1000);
   (917#1000, 995#1000); (1000#1000, 1000#1000); (1128#1000, 990#1000); (1270#1000, 959#1000);
   (1410#1000, 911#1000); (1763#1000, 737#1000); (2115#1000, 519#1000); (2500#1000, 250#1000)].
(** char_lines.json: "heat exchanger", "kA_char1", "DEFAULT". *)
Definition line_heat_exchanger_ka_char1 : list (Q * Q) :=
  [(0#10, 1#100); (1084#100000, 9598#100000); (3655#100000, 18995#100000); (7779#100000,
   28191#100000); (13389#100000, 37185#100000); (20417#100000, 45974#100000); (28796#100000,
   54557#100000); (38458#100000, 62932#100000); (49337#100000, 71098#100000); (61364#100000,
   79053#100000); (74473#100000, 86796#100000); (88595#100000, 94324#100000); (10#10, 10#10);
   (119613#100000, 10873#10000); (136374#100000, 115605#100000); (153879#100000, 122259#100000);
   (172061#100000, 128691#100000); (190854#100000, 134898#100000); (210189#100000,
   140879#100000); (229999#100000, 146633#100000); (250217#100000, 152157#100000);
   (270776#100000, 15745#10000); (291608#100000, 162511#100000); (30#10, 1645#1000)].
(** char_lines.json: "heat exchanger", "kA_char1", "CONDENSING FLUID". *)
Definition line_heat_exchanger_ka_char1_condensing_fluid : list (Q * Q) :=
  [(0#10, 1#100); (2476#100000, 19836#100000); (8114#100000, 37181#100000); (167#1000,
   52217#100000); (28023#100000, 65124#100000); (41869#100000, 76085#100000); (58027#100000,
   8528#10000); (76284#100000, 92891#100000); (96428#100000, 99099#100000); (10#10, 10#10);
   (118245#100000, 104084#100000); (141525#100000, 10803#10000); (166053#100000, 111116#100000);
   (191619#100000, 113524#100000); (218009#100000, 115435#100000); (24501#10000, 11703#10000);
   (272412#100000, 118492#100000); (30#10, 12#10)].
(** char_lines.json: "heat exchanger", "kA_char2", "DEFAULT". *)
Definition line_heat_exchanger_ka_char2 : list (Q * Q) :=
  [(0#10, 1#100); (10449#100000, 21181#100000); (23774#100000, 40637#100000); (40054#100000,
   58484#100000); (59243#100000, 74792#100000); (81296#100000, 89627#100000); (10#10, 10#10);
   (10617#10000, 103058#100000); (133818#100000, 115152#100000); (164196#100000, 125977#100000);
   (197259#100000, 135602#100000); (232963#100000, 144093#100000); (271261#100000,
   151519#100000); (30012#10000, 1562#1000)].
(** char_lines.json: "heat exchanger", "kA_char2", "EVAPORATING FLUID". *)
Definition line_heat_exchanger_ka_char2_evaporating_fluid : list (Q * Q) :=
  [(0#10, 1#100); (412#100000, 4969#100000); (76#10000, 10554#100000); (1101#100000,
   16642#100000); (1488#100000, 2312#10000); (211#10000, 29888#100000); (2758#100000,
   36806#100000); (362#10000, 43773#100000); (4751#100000, 50677#100000); (6206#100000,
   57404#100000); (8041#100000, 6384#10000); (10312#100000, 69873#100000); (13073#100000,
   75388#100000); (1638#10000, 80274#100000); (20288#100000, 84415#100000); (24854#100000,
   87699#100000); (30132#100000, 90012#100000); (37528#100000, 92187#100000); (45378#100000,
   94082#100000); (54212#100000, 95729#100000); (64561#100000, 97163#100000); (76955#100000,
   98417#100000); (91927#100000, 99525#100000); (10#10, 10#10); (110006#100000, 100521#100000);
   (131723#100000, 101439#100000); (157609#100000, 102312#100000); (188195#100000,
   103175#100000); (224011#100000, 10406#10000); (265589#100000, 105002#100000); (30#10,
   10575#10000)].
(** char_lines.json: "condenser", "kA_char1", "DEFAULT". *)
Definition line_condenser_ka_char1 : list (Q * Q) := line_heat_exchanger_ka_char1_condensing_fluid.
(** char_lines.json: "condenser", "kA_char2", "DEFAULT". *)
Definition line_condenser_ka_char2 : list (Q * Q) := line_heat_exchanger_ka_char2.
(** char_lines.json: "desuperheater", "kA_char1", "DEFAULT". *)
Definition line_desuperheater_ka_char1 : list (Q * Q) := line_heat_exchanger_ka_char1.
(** char_lines.json: "desuperheater", "kA_char2", "DEFAULT". *)
Definition line_desuperheater_ka_char2 : list (Q * Q) := line_heat_exchanger_ka_char2.
(** char_lines.json: "heat exchanger simple", "kA_char", "DEFAULT". *)
Definition line_heat_exchanger_simple_ka_char : list (Q * Q) := line_heat_exchanger_ka_char1.
(** char_lines.json: "pipe", "kA_char", "DEFAULT". *)
Definition line_pipe_ka_char : list (Q * Q) := line_heat_exchanger_ka_char1.
(** char_lines.json: "water electrolyzer", "eta_char", "DEFAULT". *)
Definition line_water_electrolyzer_eta_char : list (Q * Q) :=
  [(0#1000, 1100#1000); (833#10000, 1075#1000); (250#1000, 1050#1000); (500#1000, 1025#1000);
   (750#1000, 1010#1000); (1000#1000, 1000#1000); (1333#1000, 990#1000)].

(** The lines for isentropic and electrolyzer efficiencies. *)
Definition efficiency_lines : list (list (Q * Q)) :=
  [line_turbine_eta_s_char; line_turbine_eta_s_char_traupel; line_compressor_eta_s_char; line_pump_eta_s_char; line_water_electrolyzer_eta_char].
(** The lines for heat transfer coefficients. *)
Definition transfer_lines : list (list (Q * Q)) :=
  [line_heat_exchanger_ka_char1;
   line_heat_exchanger_ka_char1_condensing_fluid;
   line_heat_exchanger_ka_char2;
   line_heat_exchanger_ka_char2_evaporating_fluid;
   line_condenser_ka_char1;
   line_condenser_ka_char2;
   line_desuperheater_ka_char1;
   line_desuperheater_ka_char2;
   line_heat_exchanger_simple_ka_char;
   line_pipe_ka_char].
