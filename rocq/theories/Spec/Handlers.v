(** What "the first handler that accepts" means, and a way to see which handlers
    were asked to do work. *)
From Verif Require Import Base.Bytes Base.Res Model.Transform Model.Bundle Model.Handlers.
Open Scope list_scope.

Section Spec.
Context {B W : Type}.
(** Asked in order starting in world [w], all these handlers decline, leaving
    world [w']. *)
Fixpoint all_decline (asked : handler B W -> W -> res (bool * W)) (hs : list (handler B W)) (w w' : W) : Prop :=
  match hs with
  | [] => w' = w
  | h :: hs1 => exists w1, asked h w = Ok (false, w1) /\ all_decline asked hs1 w1 w'
  end.

(** A handler that writes its number down whenever it is asked to transform or
    to untransform. *)
Definition watched (k : nat) (h : handler B W) : handler B (W * list nat) := {|
  h_transform := fun b i o w => do r <- h_transform h b i o (fst w) ;; let '(r, o, w1) := r in Ok (r, o, (w1, snd w ++ [k]));
  h_untransform := fun i o w => do r <- h_untransform h i o (fst w) ;; let '(r, o, w1) := r in Ok (r, o, (w1, snd w ++ [k]));
  h_can_handle := fun i e w => do r <- h_can_handle h i e (fst w) ;; let '(a, w1) := r in Ok (a, (w1, snd w));
  h_can_handle_untransform := fun i e w => do r <- h_can_handle_untransform h i e (fst w) ;; let '(a, w1) := r in Ok (a, (w1, snd w)) |}.
Fixpoint watched_from (k : nat) (hs : list (handler B W)) : list (handler B (W * list nat)) :=
  match hs with [] => [] | h :: hs1 => watched k h :: watched_from (S k) hs1 end.
End Spec.

(** [u]'s untransform undoes [h]'s transform of [x], for outputs of the size of
    the input. *)
Definition undoes {B W} (u h : handler B W) (x : list byte) : Prop :=
  forall b out w y w1, zlen out = zlen x -> h_transform h b x out w = Ok (ROk tt, y, w1) ->
  zlen y = zlen x /\ forall out2 w2, zlen out2 = zlen x -> exists w3, h_untransform u y out2 w2 = Ok (ROk tt, x, w3).
(** Successful calls leave the output's length alone. (A Rust slice cannot
    change its length, so every handler has this property.) *)
Definition keeps_length {B W} (h : handler B W) (x : list byte) : Prop :=
  (forall b out w y w1, zlen out = zlen x -> h_transform h b x out w = Ok (ROk tt, y, w1) -> zlen y = zlen out) /\
  (forall out w y w1, zlen out = zlen x -> h_untransform h x out w = Ok (ROk tt, y, w1) -> zlen y = zlen out).

(** A history of calls to the file API. *)
Inductive file_call (B W : Type) :=
| TransformFile (o : io) (h : handler B W) (from to : path) (b : B)
| UntransformFile (o : io) (h : handler B W) (from to : path)
| TransformFileMulti (o : io) (hs : list (handler B W)) (from to : path) (b : B)
| UntransformFileMulti (o : io) (hs : list (handler B W)) (from to : path)
| TransformToFile (o : io) (h : handler B W) (data : list byte) (to : path) (b : B)
| UntransformToFile (o : io) (h : handler B W) (data : list byte) (to : path)
| TransformToFileMulti (o : io) (hs : list (handler B W)) (data : list byte) (to : path) (b : B) (ext : option string)
| UntransformToFileMulti (o : io) (hs : list (handler B W)) (data : list byte) (to : path) (ext : option string).
Arguments TransformFile {B W}. Arguments UntransformFile {B W}. Arguments TransformFileMulti {B W}. Arguments UntransformFileMulti {B W}.
Arguments TransformToFile {B W}. Arguments UntransformToFile {B W}. Arguments TransformToFileMulti {B W}. Arguments UntransformToFileMulti {B W}.
Definition output_of {B W} (k : file_call B W) : path :=
  match k with
  | TransformFile _ _ _ to _ | UntransformFile _ _ _ to | TransformFileMulti _ _ _ to _ | UntransformFileMulti _ _ _ to
  | TransformToFile _ _ _ to _ | UntransformToFile _ _ _ to | TransformToFileMulti _ _ _ to _ _ | UntransformToFileMulti _ _ _ to _ => to
  end.
(** The files and the world after one call, whatever it returned. *)
Definition after {R FS W : Type} (r : res (R * FS * W)) : res (FS * W) := do r <- r ;; Ok (snd (fst r), snd r).
Definition run_call {B W} (ext : path -> option string) (k : file_call B W) (fs : files) (w : W) : res (files * W) :=
  match k with
  | TransformFile o h from to b => after (transform_file_with_handler o h from to b fs w)
  | UntransformFile o h from to => after (untransform_file_with_handler o h from to fs w)
  | TransformFileMulti o hs from to b => after (transform_file_with_multiple_handlers ext o hs from to b fs w)
  | UntransformFileMulti o hs from to => after (untransform_file_with_multiple_handlers ext o hs from to fs w)
  | TransformToFile o h d to b => after (transform_slice_to_file_with_handler o h d to b fs w)
  | UntransformToFile o h d to => after (untransform_slice_to_file_with_handler o h d to fs w)
  | TransformToFileMulti o hs d to b e => after (transform_slice_to_file_with_multiple_handlers o hs d to b e fs w)
  | UntransformToFileMulti o hs d to e => after (untransform_slice_to_file_with_multiple_handlers o hs d to e fs w)
  end.
Fixpoint run_calls {B W} (ext : path -> option string) (ks : list (file_call B W)) (fs : files) (w : W) : res (files * W) :=
  match ks with
  | [] => Ok (fs, w)
  | k :: ks1 => do r <- run_call ext k fs w ;; run_calls ext ks1 (fst r) (snd r)
  end.

(** Opening, mapping and creating these files works. *)
Definition io_works (o : io) (from to : path) : Prop := open_ok o from = true /\ map_ok o from = true /\ create_ok o to = true /\ map_ok o to = true.
(** A file holds [x] and can be read. *)
Definition can_read (o : io) (fs : files) (p : path) (x : list byte) : Prop := fs p = Some x /\ open_ok o p = true /\ map_ok o p = true.
Definition cannot_read (o : io) (fs : files) (p : path) : Prop := fs p = None \/ open_ok o p = false \/ map_ok o p = false.
(** What a choice among handlers returns when [h] was chosen and alone returns
    [r]. *)
Definition chosen {B W O E} (h : handler B W) (r : res (result unit E * O * W)) : res (result (handler B W) E * O * W) :=
  match r with
  | Ok (ROk _, o, w) => Ok (ROk h, o, w)
  | Ok (RErr e, o, w) => Ok (RErr e, o, w)
  | Panic y => Panic y
  | Ub y => Ub y
  end.
