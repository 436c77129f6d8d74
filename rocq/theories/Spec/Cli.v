(** Runs of the command line tool, and which directories and files it is given. *)
From Verif Require Import Base.Bytes Base.Res Model.Kernel Model.Transform Model.Embed Model.Bundle Model.Dds Model.Handlers Model.Cli.
From Coq Require Import Ascii String.
Open Scope list_scope.

(** A file name: some characters, no separator. *)
Fixpoint no_slash (s : string) : Prop :=
  match s with EmptyString => True | String a r => a <> "/"%char /\ no_slash r end.
Definition file_name (s : string) : Prop := s <> EmptyString /\ no_slash s.
(** Letters in lower case: the letter at the same place in the alphabet. *)
Definition lower_letter (a : ascii) : ascii :=
  match String.index 0 (String a EmptyString) "ABCDEFGHIJKLMNOPQRSTUVWXYZ"%string with
  | Some i => match String.get i "abcdefghijklmnopqrstuvwxyz"%string with Some b => b | None => a end
  | None => a
  end.
Fixpoint lower (s : string) : string := match s with EmptyString => EmptyString | String a r => String (lower_letter a) (lower r) end.
Fixpoint no_dot (s : string) : Prop :=
  match s with EmptyString => True | String a r => a <> "."%char /\ no_dot r end.
(** Neither directory contains the other (nor are they the same). *)
Definition apart (d1 d2 : components) : Prop := (forall r, d1 <> d2 ++ r) /\ (forall r, d2 <> d1 ++ r).
(** Distinct files below a directory. *)
Definition files_below (dir : components) (entries : list components) : Prop :=
  NoDup entries /\ Forall (fun p => exists r, p = dir ++ r /\ r <> [] /\ Forall file_name p) entries.

(** The files the tool can see: not directories, reached through directories it
    can read. *)
Inductive visible : tree -> components -> Prop :=
| visible_file es name : In (Some (name, Leaf)) es -> visible (Folder (Some es)) [name]
| visible_below es name sub r : In (Some (name, sub)) es -> visible sub r -> visible (Folder (Some es)) (name :: r).
(** Names are names, and no directory has two entries of the same name. *)
Definition entry_names (es : list (option (string * tree))) : list string :=
  flat_map (fun e => match e with Some (n, _) => [n] | None => [] end) es.
Inductive real_tree : tree -> Prop :=
| real_leaf : real_tree Leaf
| real_locked : real_tree (Folder None)
| real_folder es : NoDup (entry_names es) -> Forall file_name (entry_names es) ->
    (forall name sub, In (Some (name, sub)) es -> real_tree sub) -> real_tree (Folder (Some es)).

Section Run.
Context {B W : Type}.
Variable utf8 : string -> bool.
Variable cmd : command B.
Variable handlers : list (handler B W).
Variables input_dir output_dir : components.

(** A run: any number of steps, in any order. [n] counts the steps that are not
    partial writes. Since the tool can be stopped anywhere, every state of a run
    is a state it can be left in. *)
Inductive run : nat -> state -> state -> Prop :=
| run_none s : run 0 s s
| run_step n s s1 partial s2 : run n s s1 -> step utf8 cmd handlers input_dir output_dir partial s1 s2 ->
    run (if partial then n else S n) s s2.
Definition reachable (entries : list components) (fs : files) (s : state) : Prop :=
  exists n, run n (start entries fs) s.
End Run.

(** Nothing more happens to a task in this phase. *)
Definition finished {B W} (ph : phase (B := B) (W := W)) : Prop :=
  match ph with Returned (RErr _) | Counted _ | Panicked | Undefined => True | _ => False end.
(** The task has ended well. *)
Definition succeeded {B W} (ph : phase (B := B) (W := W)) : Prop :=
  match ph with Returned (ROk _) | Counted _ => True | _ => False end.
(** The output file has not been made yet. *)
Definition no_output_yet {B W} (ph : phase (B := B) (W := W)) : Prop :=
  match ph with Waiting | HasDirectory | Measured _ | Choosing _ _ _ | Accepted _ _ _ => True | _ => False end.
Definition counted {B W} (ph : phase (B := B) (W := W)) : Z := match ph with Counted n => n | _ => 0 end.
Definition sum (l : list Z) : Z := fold_right Z.add 0 l.

Section Story.
Context {B W : Type}.
Variable utf8 : string -> bool.
Variable cmd : command B.
Variable handlers : list (handler B W).

Definition declines (x : list byte) (p : components) (h : handler B W) : Prop := exists w w1, accepts utf8 cmd h x p w = Ok (false, w1).
(** [h] is the first handler that accepted. *)
Definition first_accepting (x : list byte) (p : components) (h : handler B W) : Prop :=
  exists earlier later, handlers = earlier ++ h :: later /\ Forall (declines x p) earlier /\ exists w w1, accepts utf8 cmd h x p w = Ok (true, w1).

(** What must have happened for a task to be in a phase. [before] and [now] are
    the files at the start and now, [i] and [o] name the input and the output. *)
Definition story (before now : files) (p : components) (i o : path) (ph : phase) : Prop :=
  let size n := n = 0 \/ exists x, before i = Some x /\ n = zlen x in
  match ph with
  | Waiting | HasDirectory => now o = before o
  | Measured n => now o = before o /\ size n
  | Choosing n x rest => now o = before o /\ size n /\ before i = Some x /\
      exists earlier, handlers = earlier ++ rest /\ Forall (declines x p) earlier
  | Accepted n x h => now o = before o /\ size n /\ before i = Some x /\ first_accepting x p h
  | Created n x h => size n /\ before i = Some x /\ first_accepting x p h /\ exists d, now o = Some d /\ zlen d = zlen x
  | Working n x h d d1 => size n /\ before i = Some x /\ first_accepting x p h /\ zlen d = zlen x /\ now o = Some d1 /\ zlen d1 = zlen x
  | Returned (ROk n) | Counted n =>
      size n /\ exists x h d w y w1, before i = Some x /\ first_accepting x p h /\ zlen d = zlen x /\ work cmd h x d w = Ok (ROk tt, y, w1) /\ now o = Some y
  | Returned (RErr CIo) => now o = before o
  | Returned (RErr (CFile FIo)) => True
  | Returned (RErr (CFile (FTransform e))) => exists x, before i = Some x /\
      (e = NoSupportedHandler /\ Forall (declines x p) handlers /\ now o = before o \/
       exists h d w y w1, first_accepting x p h /\ zlen d = zlen x /\ work cmd h x d w = Ok (RErr e, y, w1) /\ now o = Some y)
  | Panicked => exists x, before i = Some x /\ exists h w why,
      In h handlers /\ (accepts utf8 cmd h x p w = Panic why \/ exists d, zlen d = zlen x /\ work cmd h x d w = Panic why)
  | Undefined => exists x, before i = Some x /\ exists h w why,
      In h handlers /\ (accepts utf8 cmd h x p w = Ub why \/ exists d, zlen d = zlen x /\ work cmd h x d w = Ub why)
  end.
End Story.

(** ** What the presets do *)

(** A file with its first four bytes replaced by a header and the [n] bytes from
    [off] on by a texture. *)
Definition packed_file (h : header) (x : list byte) (off n : Z) (texture : list byte) : list byte :=
  u32_bytes h ++ slice x 4 (off - 4) ++ texture ++ slice x (off + n) (zlen x - (off + n)).
(** A DDS file with all the bytes of a BC1 texture, in whole blocks. *)
Definition whole_bc1_file (debug : bool) (x : list byte) (i : dds_info) : Prop :=
  parse_dds debug x = Ok (Some i) /\ i_format i = DBC1 /\ i_data_offset i + i_data_length i <= zlen x /\ i_data_length i mod 8 = 0 /\
  (debug = true -> 0 < i_data_length i).
