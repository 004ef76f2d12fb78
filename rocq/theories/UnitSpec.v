(** * UnitSpec: what the unit names mean, by their legal definitions.

    Each name with its dimension and the function from a magnitude in that unit to the
    value in SI base units (metre, kilogram, second, kelvin).  Written without the
    model's table of units. *)
From Coq Require Import String Reals List.
From Verif Require Import Pint.
Import ListNotations.
Local Open Scope string_scope.
Local Open Scope R_scope.

(** The international yard and pound (1959), standard gravity (1901), the standard
    atmosphere (1954). *)
Definition inch : R := 0.0254.
Definition foot : R := 12 * inch.
Definition mile : R := 5280 * foot.
Definition pound : R := 0.45359237.
Definition gravity : R := 9.80665.
Definition pound_force : R := pound * gravity.
Definition pounds_per_square_inch : R := pound_force / (inch * inch).
Definition atmosphere : R := 101325.
Definition bar : R := 100000.

Definition meanings : list (string * (dim * (R -> R))) :=
  let is (d : dim) (unit : R) := (d, fun m => m * unit) in
  let celsius := (d_temperature, fun c => c + 273.15) in
  let fahrenheit := (d_temperature, fun f => (f - 32) * 5 / 9 + 273.15) in
  [ ("", is d_none 1); ("dimensionless", is d_none 1);
    ("m", is d_length 1); ("meter", is d_length 1);
    ("cm", is d_length (1 / 100)); ("mm", is d_length (1 / 1000)); ("millimeter", is d_length (1 / 1000));
    ("in", is d_length inch); ("inch", is d_length inch);
    ("ft", is d_length foot); ("mile", is d_length mile);
    ("m^2", is d_area 1); ("in^2", is d_area (inch * inch)); ("m^3", is d_volume 1);
    ("1/in", is d_invlength (1 / inch));
    ("Pa", is d_pressure 1); ("kPa", is d_pressure 1000);
    ("MPa", is d_pressure 1000000); ("GPa", is d_pressure 1000000000);
    ("bar", is d_pressure bar); ("atm", is d_pressure atmosphere);
    ("psi", is d_pressure pounds_per_square_inch);
    ("ksi", is d_pressure (1000 * pounds_per_square_inch));
    ("K", is d_temperature 1); ("kelvin", is d_temperature 1);
    ("degC", celsius); ("degree_Celsius", celsius);
    ("degF", fahrenheit); ("degree_Fahrenheit", fahrenheit);
    ("m/s", is d_velocity 1);
    ("kg/m^3", is d_density 1);
    ("g/cm^3", is d_density ((1 / 1000) / ((1 / 100) * (1 / 100) * (1 / 100))));
    ("g/cm**3", is d_density ((1 / 1000) / ((1 / 100) * (1 / 100) * (1 / 100))));
    ("Pa*s", is d_viscosity 1) ].
