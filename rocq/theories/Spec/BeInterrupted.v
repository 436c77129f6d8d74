(** The transform command of a big-endian machine, killed somewhere (Spec/Interrupted.v). *)
From Verif Require Import Base.Bytes Base.Res Model.Kernel Model.Auto Model.Builders Model.Bundle Model.Dds Model.Handlers Model.Cli Model.Interrupted Model.BeFiles Model.EndianTool Model.BeInterrupted Spec.Cli Spec.Interrupted.
Open Scope list_scope.
Open Scope Z_scope.

Section Killed.
Context {St Er : Type}.
Variables (utf8 : string -> bool) (show : Er -> string) (c : cfg) (v : env) (b : bundle St Er) (input_dir output_dir : components).
Let hs : list (handler (bundle St Er) St) := be_all_handlers show c v.
(** As [in_order]. *)
Definition be_in_order (s : state (B := bundle St Er) (W := St)) : Prop := forall r ph, In (input_dir ++ r, ph) (s_tasks s) ->
  match ph with
  | Created _ x _ => s_files s (render (output_dir ++ r)) = Some (zeros (zlen x))
  | Working _ x _ d now => d = zeros (zlen x) /\ exists w ws, be_dds_transform_writes show c v b x d w = Ok ws /\ left_in_order ws d now
  | _ => True
  end.
(** The states of a run of this kind; the process can be be_killed in any of them. *)
Inductive be_killed (entries : list components) (before : files) : state -> Prop :=
| be_killed_first : be_killed entries before (start entries before)
| be_killed_later s partial s1 : be_killed entries before s -> step utf8 (TransformDir b) hs input_dir output_dir partial s s1 -> be_in_order s1 -> be_killed entries before s1.
End Killed.
