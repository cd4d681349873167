(** Model of the signal types of signal kinds (sttp/transport/SignalKind.go). *)
From Verif Require Import Base SignalModel.

(** SignalKind.go:138-175 SignalTypeAcronym; [p] is the rune of the phasor type. *)
Definition SignalTypeAcronym (k p : Z) : list Z :=
  if k =? kAngle then if upper_rune p =? 86 then [86; 80; 72; 65] (* VPHA *) else [73; 80; 72; 65] (* IPHA *)
  else if k =? kMagnitude then if upper_rune p =? 86 then [86; 80; 72; 77] (* VPHM *) else [73; 80; 72; 77] (* IPHM *)
  else if k =? kFrequency then [70; 82; 69; 81]   (* FREQ *)
  else if k =? kDfDt then [68; 70; 68; 84]        (* DFDT *)
  else if k =? kStatus then [70; 76; 65; 71]      (* FLAG *)
  else if k =? kDigital then [68; 73; 71; 73]     (* DIGI *)
  else if k =? kAnalog then [65; 76; 79; 71]      (* ALOG *)
  else if k =? kCalculation then [67; 65; 76; 67] (* CALC *)
  else if k =? kStatistic then [83; 84; 65; 84]   (* STAT *)
  else if k =? kAlarm then [65; 76; 82; 77]       (* ALRM *)
  else if k =? kQuality then [81; 85; 65; 76]     (* QUAL *)
  else [78; 85; 76; 76].                          (* NULL *)
