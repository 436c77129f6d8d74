(** Normalising a texture in place several times (C96). *)
From Verif Require Import Base.Bytes Base.Res Model.Normalize.

(** Calls one after another on the same memory, each in a build of its own. *)
Fixpoint passes {M : Type} (call : bool -> M -> list byte -> res (list byte)) (calls : list (bool * M)) (m : list byte) : res (list byte) :=
  match calls with
  | [] => Ok m
  | (debug, mode) :: rest => do m1 <- call debug mode m ;; passes call rest m1
  end.
(** The last mode of the list that is not None; None if there is none. *)
Definition last_colour_mode (l : list color_norm) : color_norm := last (filter (fun c => match c with CNone => false | _ => true end) l) CNone.
Definition last_alpha_mode (l : list alpha_norm) : alpha_norm := last (filter (fun a => match a with ANone => false | _ => true end) l) ANone.
