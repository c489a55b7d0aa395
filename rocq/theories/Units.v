(** Specification: the physical units of DLMS/COSEM (IEC 62056-6-2, "unit"), by
    their codes, with the names used on the screen. *)
From Coq Require Import String Ascii.
From Verif Require Import Base.

Definition unit_names : list (Z * string) := [
  (* time *) (1, "a"); (2, "mo"); (3, "wk"); (4, "d"); (5, "h"); (6, "min."); (7, "s");
  (* angle, temperature, money *) (8, "°"); (9, "°C"); (10, "currency");
  (* length, speed, volume and flux; corrected values have their own codes *)
  (11, "m"); (12, "m/s"); (13, "m³"); (14, "m³"); (15, "m³/h"); (16, "m³/h"); (17, "m³/d"); (18, "m³/d"); (19, "l");
  (* mechanics *) (20, "kg"); (21, "N"); (22, "Nm"); (23, "Pa"); (24, "bar"); (25, "J"); (26, "J/h");
  (* power and energy *) (27, "W"); (28, "VA"); (29, "var"); (30, "Wh"); (31, "VAh"); (32, "varh");
  (* electricity *) (33, "A"); (34, "C"); (35, "V"); (36, "V/m"); (37, "F"); (38, "Ω"); (39, "Ωm²/m"); (40, "Wb");
  (41, "T"); (42, "A/m"); (43, "H"); (44, "Hz");
  (* meter constants *) (45, "1/(Wh)"); (46, "1/(varh)"); (47, "1/(VAh)"); (48, "V²h"); (49, "A²h");
  (50, "kg/s"); (51, "S, mho"); (52, "K"); (53, "1/(V²h)"); (54, "1/(A²h)"); (55, "1/m³"); (56, "%"); (57, "Ah");
  (* gas *) (60, "Wh/m³"); (61, "J/m³"); (62, "Mol %"); (63, "g/m³"); (64, "Pa s");
  (253, "(reserved)"); (254, "(other)"); (255, "(unitless)")]%string.
Definition chars (s : string) : list Z := map (fun a => Z.of_N (N_of_ascii a)) (list_ascii_of_string s).
Definition is_unit (code : Z) (text : list Z) : Prop := exists s, In (code, s) unit_names /\ text = chars s.
