(** Plain descriptions for the debug-endian commands. *)
From Verif Require Import Base.Bytes Base.Res Model.Transform Model.Builders Model.Cli Model.EndianTest Spec.Cli.
From Coq Require Import String.

(** Two directories have the same files, with the same contents. *)
Definition same_directory (d1 d2 : directory) : Prop :=
  (forall r, visible (d_tree d1) r <-> visible (d_tree d2) r) /\
  (forall r, visible (d_tree d1) r -> exists x, on_disk (d_file d1 r) = Some x /\ on_disk (d_file d2 r) = Some x).

(** Everything in the tree can be read. *)
Inductive readable : tree -> Prop :=
| readable_folder es : (forall e, In e es -> exists name sub, e = Some (name, sub) /\ (sub = Leaf \/ readable sub)) ->
    readable (Folder (Some es)).

(** Nothing goes wrong with a file, and each [read] fills the buffer. *)
Definition reads_well (f : disk_file) : Prop :=
  size_ok f = true /\ can_open f = true /\ forall n, exists k, reads f n = Some k /\ 65536 <= k.

(** What a passed test of one file says. *)
Definition machines_agree (le be : machine) (file : list byte) : Prop :=
  exists dl db rl rb,
    run_transform le file = ROk (true, dl) /\ run_transform be file = ROk (true, db) /\ same_directory dl db /\
    run_untransform le dl = ROk (true, rl) /\ run_untransform be db = ROk (true, rb) /\ same_directory rl rb.
(** The directories a machine leaves are real ones. *)
Definition real_machine (m : machine) : Prop :=
  (forall f ok d, run_transform m f = ROk (ok, d) -> real_tree (d_tree d)) /\
  (forall d ok d1, run_untransform m d = ROk (ok, d1) -> real_tree (d_tree d1)).
(** They can be read without trouble. *)
Definition quiet_machine (m : machine) : Prop :=
  (forall f ok d, run_transform m f = ROk (ok, d) -> readable (d_tree d) /\ forall p, reads_well (d_file d p)) /\
  (forall d ok d1, run_untransform m d = ROk (ok, d1) -> readable (d_tree d1) /\ forall p, reads_well (d_file d1 p)).

(** The settings of the command that each machine runs, in the order in which they are tried. *)
Definition settings_in_order : list (stable_variant * bool) :=
  [(VariantNone, false); (VariantNone, true); (Variant1, false); (Variant1, true);
   (Variant2, false); (Variant2, true); (Variant3, false); (Variant3, true)].
(** Settings are tried one after another, each on what the attempts before it
    left, until one works; the boolean says whether one did. *)
Inductive attempts {Fs St A E : Type} (try : stable_variant -> bool -> Fs -> St -> res (result A E * Fs * St)) :
    list (stable_variant * bool) -> Fs -> St -> bool -> Fs -> St -> Prop :=
| none_left fs w : attempts try [] fs w false fs w
| one_works v s l fs w a fs1 w1 : try v s fs w = Ok (ROk a, fs1, w1) -> attempts try ((v, s) :: l) fs w true fs1 w1
| goes_on v s l fs w e fs1 w1 b fs2 w2 : try v s fs w = Ok (RErr e, fs1, w1) -> attempts try l fs1 w1 b fs2 w2 ->
    attempts try ((v, s) :: l) fs w b fs2 w2.
(** A machine whose only errors are those of starting the tool. *)
Definition only_io_errors (m : machine) : Prop :=
  (forall f e, run_transform m f = RErr e -> e = EIo) /\ (forall d e, run_untransform m d = RErr e -> e = EIo).
