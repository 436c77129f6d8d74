(** What the first four bytes of a file ask the restoring code to do. *)
From Verif Require Import Base.Bytes Model.Color565 Model.Transform Model.Builders Model.Calls Spec.Header.

Inductive request := NotKnown | BadVersion | Restore (k : codec) (s : settings).

(** [w] is the number the four bytes spell, lowest byte first. Bits 9 to 31 are ignored. *)
Definition request_of (w : Z) : request :=
  if 1 <? bits w 0 4 then NotKnown
  else if bits w 4 2 =? 0
  then Restore (if bits w 0 4 =? 0 then CBc1 else CBc2) (Settings (variant_of_code (bits w 7 2)) (bits w 6 1 =? 1))
  else BadVersion.

(** A file with its first four bytes replaced. *)
Definition with_word (h f : list byte) : list byte := h ++ skipn 4 f.

(** The codec and settings as a job for the functions of Model/Calls.v. *)
Definition job_of (k : codec) (s : settings) : job := match k with CBc1 => Bc1 s | CBc2 => Bc2 s end.
