(** The hourly record of a TMY2 file, from the User's Manual for TMY2s (NREL 1995), Table 3-2: name, first and last position (1-based).  Written from the manual, not from the code *)
From Coq Require Import List String.
Import ListNotations.
Definition tmy2_manual : list (string * nat * nat) :=
  [("year", 2, 3); ("month", 4, 5); ("day", 6, 7); ("hour", 8, 9); ("ETR", 10, 13); ("ETRN", 14, 17); ("GHI", 18, 21); ("GHISource", 22, 22); ("GHIUncertainty", 23, 23); ("DNI", 24, 27); ("DNISource", 28, 28); ("DNIUncertainty", 29, 29); ("DHI", 30, 33); ("DHISource", 34, 34); ("DHIUncertainty", 35, 35); ("GHillum", 36, 39); ("GHillumSource", 40, 40); ("GHillumUncertainty", 41, 41); ("DNillum", 42, 45); ("DNillumSource", 46, 46); ("DNillumUncertainty", 47, 47); ("DHillum", 48, 51); ("DHillumSource", 52, 52); ("DHillumUncertainty", 53, 53); ("Zenithlum", 54, 57); ("ZenithlumSource", 58, 58); ("ZenithlumUncertainty", 59, 59); ("TotCld", 60, 61); ("TotCldSource", 62, 62); ("TotCldUncertainty", 63, 63); ("OpqCld", 64, 65); ("OpqCldSource", 66, 66); ("OpqCldUncertainty", 67, 67); ("DryBulb", 68, 71); ("DryBulbSource", 72, 72); ("DryBulbUncertainty", 73, 73); ("DewPoint", 74, 77); ("DewPointSource", 78, 78); ("DewPointUncertainty", 79, 79); ("RHum", 80, 82); ("RHumSource", 83, 83); ("RHumUncertainty", 84, 84); ("Pressure", 85, 88); ("PressureSource", 89, 89); ("PressureUncertainty", 90, 90); ("Wdir", 91, 93); ("WdirSource", 94, 94); ("WdirUncertainty", 95, 95); ("Wspd", 96, 98); ("WspdSource", 99, 99); ("WspdUncertainty", 100, 100); ("Hvis", 101, 104); ("HvisSource", 105, 105); ("HvisUncertainty", 106, 106); ("CeilHgt", 107, 111); ("CeilHgtSource", 112, 112); ("CeilHgtUncertainty", 113, 113); ("PresentWeather", 114, 123); ("Pwat", 124, 126); ("PwatSource", 127, 127); ("PwatUncertainty", 128, 128); ("AOD", 129, 131); ("AODSource", 132, 132); ("AODUncertainty", 133, 133); ("SnowDepth", 134, 136); ("SnowDepthSource", 137, 137); ("SnowDepthUncertainty", 138, 138); ("LastSnowfall", 139, 140); ("LastSnowfallSource", 141, 141); ("LastSnowfallUncertainty", 142, 142)]%string%list.
