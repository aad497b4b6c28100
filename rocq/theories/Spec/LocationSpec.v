(** Specifications for location.py *)
From Coq Require Import Reals ZArith String List.
Import ListNotations.
Open Scope Z_scope.

(** the fixed-offset zones of the IANA database: hours east of Greenwich and the name (whose sign is the opposite, POSIX style) *)
Definition fixed_zones : list (Z * string) :=
  [(-12, "Etc/GMT+12"); (-11, "Etc/GMT+11"); (-10, "Etc/GMT+10"); (-9, "Etc/GMT+9"); (-8, "Etc/GMT+8"); (-7, "Etc/GMT+7"); (-6, "Etc/GMT+6");
   (-5, "Etc/GMT+5"); (-4, "Etc/GMT+4"); (-3, "Etc/GMT+3"); (-2, "Etc/GMT+2"); (-1, "Etc/GMT+1"); (0, "Etc/GMT+0"); (1, "Etc/GMT-1");
   (2, "Etc/GMT-2"); (3, "Etc/GMT-3"); (4, "Etc/GMT-4"); (5, "Etc/GMT-5"); (6, "Etc/GMT-6"); (7, "Etc/GMT-7"); (8, "Etc/GMT-8");
   (9, "Etc/GMT-9"); (10, "Etc/GMT-10"); (11, "Etc/GMT-11"); (12, "Etc/GMT-12"); (13, "Etc/GMT-13"); (14, "Etc/GMT-14")]%string.
(** all names of the database beginning with Etc/GMT *)
Definition gmt_names : list string := (map snd fixed_zones ++ ["Etc/GMT"%string; "Etc/GMT0"%string; "Etc/GMT-0"%string])%list.

Open Scope R_scope.
(** metres for a stored byte; 255 marks missing data *)
Definition stored_altitude (code : Z) : R := if Z.eq_dec code 255 then 0 else IZR code * 28 - 450.
