(** A history of calls: a program hands each call's result to the next call.

    Simplification: each call of the list below is one of the six slice functions
    of the three codec crates (Model/Transform.v, Model/BeTransform.v); the
    program keeps the first [input.len()] bytes of the output, as the functions'
    documentation tells it to.

    src/core/dxt-lossless-transform-bc1/src/transform/safe/transform_with_settings.rs:88-117, 192-221
    src/core/dxt-lossless-transform-bc2/src/transform/safe/transform_with_settings.rs:88-117, 192-221
    src/core/dxt-lossless-transform-bc3/src/transform/safe/transform_with_settings.rs:90-119, 196-225 *)
From Verif Require Import Base.Bytes Base.Res Model.Color565 Model.Kernel Model.Transform Model.BigEndian Model.BeTransform.
Open Scope list_scope.

(** Where a call runs: a little-endian machine, or a big-endian one (debug build?
    what fills uninitialised memory). *)
Inductive machine := Little (c : cfg) | Big (debug : bool) (junk : byte).
(** Which codec with which settings. *)
Inductive job := Bc1 (s : settings) | Bc2 (s : settings) | Bc3 (s : settings3).
(** A call: [k_back] chooses the untransform function; [k_out] is the output slice before the call. *)
Record call := Call { k_on : machine; k_job : job; k_back : bool; k_out : list byte }.

(** src/core/dxt-lossless-transform-bc1/src/transform/safe/transform_with_settings.rs:88-117, 192-221
    src/core/dxt-lossless-transform-bc2/src/transform/safe/transform_with_settings.rs:88-117, 192-221
    src/core/dxt-lossless-transform-bc3/src/transform/safe/transform_with_settings.rs:90-119, 196-225 *)
Definition perform (k : call) (x : list byte) :=
  match k_on k, k_job k, k_back k with
  | Little c, Bc1 s, false => transform_bc1 c s x (k_out k)
  | Little c, Bc1 s, true => untransform_bc1 c s x (k_out k)
  | Little c, Bc2 s, false => transform_bc2 c s x (k_out k)
  | Little c, Bc2 s, true => untransform_bc2 c s x (k_out k)
  | Little c, Bc3 s, false => transform_bc3 c s x (k_out k)
  | Little c, Bc3 s, true => untransform_bc3 c s x (k_out k)
  | Big d j, Bc1 s, false => be_transform_bc1 (big_endian_cpu d j) s x (k_out k)
  | Big d j, Bc1 s, true => be_untransform_bc1 (big_endian_cpu d j) s x (k_out k)
  | Big d j, Bc2 s, false => be_transform_bc2 (big_endian_cpu d j) s x (k_out k)
  | Big d j, Bc2 s, true => be_untransform_bc2 (big_endian_cpu d j) s x (k_out k)
  | Big d j, Bc3 s, false => be_transform_bc3 (big_endian_cpu d j) s x (k_out k)
  | Big d j, Bc3 s, true => be_untransform_bc3 (big_endian_cpu d j) s x (k_out k)
  end.

(** One after the other, stopping at the first call that does not succeed.
    (The same lines.) *)
Fixpoint performs (ks : list call) (x : list byte) :=
  match ks with
  | [] => Ok (ROk x)
  | k :: ks =>
      do r <- perform k x ;;
      match fst r with
      | ROk _ => performs ks (firstn (List.length x) (snd r))
      | RErr e => Ok (RErr e)
      end
  end.
