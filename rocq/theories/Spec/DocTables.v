(** Published values of the small lookup tables, written down independently of the model. *)
From Coq Require Import Reals List String.
Import ListNotations.
Open Scope R_scope.
Open Scope string_scope.
(** Hellmann exponents: three stabilities of the air over three kinds of surface *)
Inductive air := Unstable | Neutral | Stable.
Inductive ground := OpenWater | OpenCoast | Inhabited.
Definition hellmann_name (a : air) (g : ground) : string :=
  (match a with Unstable => "unstable" | Neutral => "neutral" | Stable => "stable" end) ++ "_air_above_" ++
  (match g with OpenWater => "open_water_surface" | OpenCoast => "flat_open_coast" | Inhabited => "human_inhabited_areas" end).
Definition hellmann (a : air) (g : ground) : R :=
  match g, a with
  | OpenWater, Unstable => 6 / 100 | OpenWater, Neutral => 10 / 100 | OpenWater, Stable => 27 / 100
  | OpenCoast, Unstable => 11 / 100 | OpenCoast, Neutral => 16 / 100 | OpenCoast, Stable => 40 / 100
  | Inhabited, Unstable => 27 / 100 | Inhabited, Neutral => 34 / 100 | Inhabited, Stable => 60 / 100
  end.
(** colour and roughness of water (Dvoracek and Hannabas 1990) *)
Inductive water (name : string) : R -> R -> Prop :=
| calm : name = "clear_water_no_waves" -> water name (13 / 100) (29 / 100)
| ripples : name = "clear_water_ripples_up_to_2.5cm" -> water name (16 / 100) (70 / 100)
| large_ripples : name = "clear_water_ripples_larger_than_2.5cm_occasional_whitecaps" -> water name (23 / 100) (125 / 100)
| whitecaps : name = "clear_water_frequent_whitecaps" -> water name (30 / 100) 2
| green : name = "green_water_ripples_up_to_2.5cm" -> water name (22 / 100) (70 / 100)
| muddy : name = "muddy_water_no_waves" -> water name (19 / 100) (29 / 100).
(** albedo of common surfaces, in percent *)
Inductive albedo_percent (name : string) : R -> Prop :=
| urban : name = "urban" -> albedo_percent name 18
| grass : name = "grass" -> albedo_percent name 20
| fresh_grass : name = "fresh grass" -> albedo_percent name 26
| soil : name = "soil" -> albedo_percent name 17
| sand : name = "sand" -> albedo_percent name 40
| snow : name = "snow" -> albedo_percent name 65
| fresh_snow : name = "fresh snow" -> albedo_percent name 75
| asphalt : name = "asphalt" -> albedo_percent name 12
| concrete : name = "concrete" -> albedo_percent name 30
| aluminum : name = "aluminum" -> albedo_percent name 85
| copper : name = "copper" -> albedo_percent name 74
| fresh_steel : name = "fresh steel" -> albedo_percent name 35
| dirty_steel : name = "dirty steel" -> albedo_percent name 8
| sea : name = "sea" -> albedo_percent name 6.
