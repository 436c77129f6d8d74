(** What is left in an output when the program is stopped somewhere. *)
From Verif Require Import Base.Bytes Base.Res Model.Kernel Model.Auto Model.Builders Model.Bundle Model.Dds Model.Handlers Model.Cli Model.Interrupted Spec.Cli.
Open Scope list_scope.
Open Scope Z_scope.

(** What the output may hold in the middle of a write. The bytes of a copy arrive
    in any order; a codec may have put anything into its part of the output; a
    store happens at once. *)
Definition middle (w : write) (out z : list byte) : Prop :=
  zlen z = zlen out /\
  match w with
  | Copying a d => forall i, 0 <= i -> znth z i = znth out i \/ znth z i = znth (splice out a d) i
  | Computing a d => forall i, 0 <= i < a \/ a + zlen d <= i -> znth z i = znth out i
  | Storing _ _ => z = out
  end.
(** What is left when the program is stopped somewhere in a list of writes. *)
Inductive left_behind : list write -> list byte -> list byte -> Prop :=
| stopped_between ws out : left_behind ws out out
| stopped_within w ws out z : middle w out z -> left_behind (w :: ws) out z
| stopped_later w ws out z : left_behind ws (written w out) z -> left_behind (w :: ws) out z.
(** The same when copies fill their part from the front. *)
Definition middle_in_order (w : write) (out z : list byte) : Prop :=
  match w with
  | Copying a d => exists k, z = splice out a (firstn k d)
  | _ => middle w out z
  end.
Inductive left_in_order : list write -> list byte -> list byte -> Prop :=
| ordered_between ws out : left_in_order ws out out
| ordered_within w ws out z : middle_in_order w out z -> left_in_order (w :: ws) out z
| ordered_later w ws out z : left_in_order ws (written w out) z -> left_in_order (w :: ws) out z.

(** Files after any number of runs of the tool over the same files, each stopped
    somewhere. *)
Inductive stopped_runs {B W} (utf8 : string -> bool) (input_dir output_dir : components) (entries : list components) (before : files) : files -> Prop :=
| no_runs : stopped_runs utf8 input_dir output_dir entries before before
| one_more_run now cmd (handlers : list (handler B W)) s : stopped_runs utf8 input_dir output_dir entries before now ->
    reachable utf8 cmd handlers input_dir output_dir entries now s -> stopped_runs utf8 input_dir output_dir entries before (s_files s).

(** *** The transform command, killed somewhere *)
Section Killed.
Context {St Er : Type}.
Variables (utf8 : string -> bool) (show : Er -> string) (c : cfg) (v : env) (b : bundle St Er) (input_dir output_dir : components).
Let hs : list (handler (bundle St Er) St) := all_handlers show c v.
(** The operating system makes files of zeros, and the handler does its writes in
    their order, each copy from the front. *)
Definition zeros (n : Z) : list byte := repeat x00 (Z.to_nat n).
Definition in_order (s : state (B := bundle St Er) (W := St)) : Prop := forall r ph, In (input_dir ++ r, ph) (s_tasks s) ->
  match ph with
  | Created _ x _ => s_files s (render (output_dir ++ r)) = Some (zeros (zlen x))
  | Working _ x _ d now => d = zeros (zlen x) /\ exists w ws, dds_transform_writes show c v b x d w = Ok ws /\ left_in_order ws d now
  | _ => True
  end.
(** The states of a run of this kind; the process can be killed in any of them. *)
Inductive killed (entries : list components) (before : files) : state -> Prop :=
| killed_first : killed entries before (start entries before)
| killed_later s partial s1 : killed entries before s -> step utf8 (TransformDir b) hs input_dir output_dir partial s s1 -> in_order s1 -> killed entries before s1.
End Killed.
