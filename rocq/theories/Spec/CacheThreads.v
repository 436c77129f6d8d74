(** When a file of the compressed data cache is complete, and counting the turns
    of a schedule. *)
From Verif Require Import Base.Bytes Base.Res Model.Transform Model.Handlers Model.Inspect Model.Zstd Model.Caches Model.CacheThreads.
From Coq Require Import String.
Open Scope list_scope.
Open Scope nat_scope.

(** The file under this name holds exactly what the library makes from one of
    these byte sequences, and the name is the one for that byte sequence. *)
Definition complete_file {L} (y : zstd_codec L) (hash : list byte -> Z) (ds : list (list byte)) (name : string) (bytes : list byte) : Prop :=
  exists d level st buffer size st', In d ds /\ name = cache_key (hash d) level ZStandard /\
    compress_with_algorithm y d ZStandard level st = Ok (ROk (buffer, size), st') /\ bytes = firstn (Z.to_nat size) buffer.
Definition complete_files {L} (y : zstd_codec L) (hash : list byte -> Z) (ds : list (list byte)) (dir : data_cache) : Prop :=
  forall name bytes, dir name = Some bytes -> complete_file y hash ds name bytes.

(** The task is in the middle of writing the file with this name. *)
Definition writes (hash : list byte -> Z) (t : task) (name : string) : Prop :=
  exists bytes written c rest, t_stage t = Writing bytes written /\ t_calls t = c :: rest /\ name = call_file hash c.

(** How many turns of a schedule were possible. *)
Fixpoint turns_taken {L} (y : zstd_codec L) (hash : list byte -> Z) (schedule : list (nat * action L)) (dir : data_cache) (ts : list task) : nat :=
  match schedule with
  | [] => 0
  | (i, a) :: schedule =>
      match nth_error ts i with
      | None => turns_taken y hash schedule dir ts
      | Some t =>
          match turn y hash a dir t with
          | None => turns_taken y hash schedule dir ts
          | Some (dir, t) => S (turns_taken y hash schedule dir (replace_nth i t ts))
          end
      end
  end.

(** What did not fail. *)
Definition goes_well {L} (a : action L) : bool :=
  match a with Look | Read _ | Compress _ | Create | Write _ => true | _ => false end.

(** The byte sequences of all calls. *)
Definition all_data (calls : list (list call)) : list (list byte) := map call_data (List.concat calls).
