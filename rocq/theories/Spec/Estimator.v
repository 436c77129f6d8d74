(** What an estimator should be shown, which settings compete, and estimators
    used to state properties. *)
From Verif Require Import Base.Bytes Base.Res Model.Color565 Model.Kernel Model.Transform Model.Auto Spec.YCoCg Spec.Layout.

(** An estimator that always answers the same question in the same way. *)
Definition pure {Er} (max : Z -> result Z Er) (size : list byte -> Z -> result Z Er) : estimator unit Er :=
  Estimator (fun st n => (max n, st)) (fun st d scratch => (size d scratch, st)).

(** Any estimator, with a log of what it was asked for and what it answered. *)
Inductive call (Er : Type) :=
| AskedMax (n : Z) (answer : result Z Er)
| AskedSize (data : list byte) (scratch : Z) (answer : result Z Er).
Arguments AskedMax {Er}. Arguments AskedSize {Er}.
Definition logging {St Er} (e : estimator St Er) : estimator (St * list (call Er)) Er :=
  Estimator
    (fun st n => let '(a, s) := max_compressed_size e (fst st) n in (a, (s, snd st ++ [AskedMax n a])))
    (fun st d scratch => let '(a, s) := estimate_compressed_size e (fst st) d scratch in (a, (s, snd st ++ [AskedSize d scratch a]))).
Definition answer {Er} (k : call Er) : result Z Er := match k with AskedMax _ a => a | AskedSize _ _ a => a end.

(** The candidates: all settings, or only those with decorrelation None or
    variant 1. *)
Definition candidate (all : bool) (v : variant) : Prop := all = true \/ v = VNone \/ v = V1.

(** The bytes the estimate of a candidate is based on: the colour endpoint
    section; for BC3 the alpha endpoint section and the colour endpoint section. *)
Definition bc1_shown (x : list byte) (s : settings) : list (list byte) :=
  [lay (colour_fields (decorrelation_mode s) (split_colour_endpoints s) 0) (blocks 8 x)].
Definition bc2_shown (x : list byte) (s : settings) : list (list byte) :=
  [lay (colour_fields (decorrelation_mode s) (split_colour_endpoints s) 8) (blocks 16 x)].
Definition bc3_shown (x : list byte) (s : settings3) : list (list byte) :=
  [lay (if split_alpha_endpoints s then [raw 0 1; raw 1 1] else [raw 0 2]) (blocks 16 x);
   lay (colour_fields (decorrelation_mode3 s) (split_colour_endpoints3 s) 8) (blocks 16 x)].

(** The estimate of a candidate: the sum over the sections shown. *)
Fixpoint total_size {Er} (size : list byte -> result Z Er) (ds : list (list byte)) : result Z Er :=
  match ds with
  | [] => ROk 0
  | d :: ds => match size d, total_size size ds with
               | ROk a, ROk b => ROk (a + b)
               | RErr e, _ => RErr e
               | _, RErr e => RErr e
               end
  end.

(** The order in which candidates are tried: from the settings that are rarely
    the best to those that often are. *)
Definition tried (all : bool) : list settings :=
  if all then
    [Settings V2 false; Settings VNone false; Settings VNone true; Settings V3 false;
     Settings V3 true; Settings V2 true; Settings V1 false; Settings V1 true]
  else [Settings VNone false; Settings VNone true; Settings V1 false; Settings V1 true].
Definition tried3 (all : bool) : list settings3 :=
  if all then
    [Settings3 V2 true false; Settings3 V2 true true; Settings3 V3 true true; Settings3 V3 true false;
     Settings3 V1 true false; Settings3 V3 false true; Settings3 V1 true true; Settings3 V2 false true;
     Settings3 V2 false false; Settings3 V3 false false; Settings3 VNone true false; Settings3 VNone false true;
     Settings3 VNone true true; Settings3 V1 false true; Settings3 VNone false false; Settings3 V1 false false]
  else
    [Settings3 V1 true false; Settings3 V1 true true; Settings3 VNone true false; Settings3 VNone false true;
     Settings3 VNone true true; Settings3 V1 false true; Settings3 VNone false false; Settings3 V1 false false].
