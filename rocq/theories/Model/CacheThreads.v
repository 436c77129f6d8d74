(** The dry run of the benchmark commands: any number of threads use the
    compressed data cache at the same time
    (src/tools/dxt-lossless-transform-cli/src/commands/debug_bc1/benchmark.rs,
    the same in debug_bc2 and debug_bc3; the lines below are those of debug_bc3).

    A task is the work on one file (src/tools/dxt-lossless-transform-cli/src/commands/debug_bc3/benchmark.rs:94-115, [for_each]): one call of
    [compress_data_cached] after another (src/tools/dxt-lossless-transform-cli/src/commands/debug_bc3/benchmark.rs:262-280). All tasks may run at the
    same time, and each system call of one may come between any two of another.

    Simplifications: of the results of the calls only the bytes are kept; the size
    cache, which is behind a lock, is left out (see C61); a file that was found is
    still there when it is opened (nothing removes cache files). *)
From Verif Require Import Base.Bytes Base.Res Model.Transform Model.Handlers Model.Inspect Model.Zstd Model.Caches.
From Coq Require Import String.
Open Scope list_scope.
Open Scope nat_scope.

(** One call of [compress_data_cached] (src/tools/dxt-lossless-transform-cli/src/debug_format/compression/helpers.rs:43-84). The
    algorithm is always [ZStandard] (src/tools/dxt-lossless-transform-cli/src/commands/debug_bc3/benchmark.rs:44 and src/tools/dxt-lossless-transform-cli/src/debug_format/compression/helpers.rs:18-28). *)
Record call := Call { call_data : list byte; call_level : Z }.

(** How far the current call is: not begun; the file is open and these bytes were
    read (src/tools/dxt-lossless-transform-cli/src/debug_format/compressed_data_cache.rs:69-74); there is no file (65-67); compressed,
    not yet created (src/tools/dxt-lossless-transform-cli/src/debug_format/compression/helpers.rs:63-64); the file was created and so
    many bytes were written (src/tools/dxt-lossless-transform-cli/src/debug_format/compressed_data_cache.rs:95-99). *)
Inductive stage :=
| Begin | Reading (read : list byte) | Missing | Compressed (bytes : list byte) | Writing (bytes : list byte) (written : nat).
(** The current call and the ones to come; what the finished calls returned.
    src/tools/dxt-lossless-transform-cli/src/commands/debug_bc3/benchmark.rs:94-115 *)
Record task := Task { t_stage : stage; t_calls : list call; t_answers : list (list byte) }.

(** What the operating system and the library do when it is the task's turn: the
    file is looked for, and opened if it is there; a part of it is read; the
    library compresses in this state; the file is created; a part is written. Or
    one of these fails.
    src/tools/dxt-lossless-transform-cli/src/debug_format/compressed_data_cache.rs:55-110 *)
Inductive action (L : Type) :=
| Look | OpenFails | Read (n : nat) | ReadFails | Compress (st : L) | Create | CreateFails | Write (n : nat) | WriteFails.
Arguments Look {L}. Arguments OpenFails {L}. Arguments Read {L}. Arguments ReadFails {L}. Arguments Compress {L}. Arguments Create {L}.
Arguments CreateFails {L}. Arguments Write {L}. Arguments WriteFails {L}.

(** Writing at a position of a file. If the file was made shorter meanwhile (by
    [File::create] in another task), the gap is filled with zeros.
    src/tools/dxt-lossless-transform-cli/src/debug_format/compressed_data_cache.rs:83-110 *)
Definition write_at (file : list byte) (position : nat) (bytes : list byte) : list byte :=
  firstn position (file ++ repeat Byte.x00 (position - List.length file)) ++ bytes ++ skipn (position + List.length bytes) file.

Section Tasks.
Context {L : Type}.
Variable y : zstd_codec L.
Variable hash : list byte -> Z.

(** The name of the file of a call (src/tools/dxt-lossless-transform-cli/src/debug_format/compressed_data_cache.rs:63, 93). *)
Definition call_file (c : call) : string := cache_key (hash (call_data c)) (call_level c) ZStandard.

(** A call ends and the next one begins (src/tools/dxt-lossless-transform-cli/src/debug_format/compression/helpers.rs:59, 83). *)
Definition returns (t : task) (answer : list byte) : task := Task Begin (tl (t_calls t)) (t_answers t ++ [answer]).
(** An error ends the work on the file (the question marks in src/tools/dxt-lossless-transform-cli/src/commands/debug_bc3/benchmark.rs:265, 275, 318). *)
Definition gives_up (t : task) : task := Task Begin [] (t_answers t).

(** One turn of a task; nothing if it is not what the task waits for.
    src/tools/dxt-lossless-transform-cli/src/debug_format/compression/helpers.rs *)
Definition turn (a : action L) (dir : data_cache) (t : task) : option (data_cache * task) :=
  match t_calls t with
  | [] => None
  | c :: _ =>
      let file := call_file c in
      match t_stage t, a with
      (* src/tools/dxt-lossless-transform-cli/src/debug_format/compressed_data_cache.rs:65-70 *)
      | Begin, Look =>
          match dir file with
          | None => Some (dir, Task Missing (t_calls t) (t_answers t))
          | Some _ => Some (dir, Task (Reading []) (t_calls t) (t_answers t))
          end
      | Begin, OpenFails => match dir file with None => None | Some _ => Some (dir, gives_up t) end
      (* src/tools/dxt-lossless-transform-cli/src/debug_format/compressed_data_cache.rs:73-79: [read_to_end] ends when nothing is left *)
      | Reading got, Read n =>
          match dir file with
          | None => None
          | Some content =>
              match firstn (S n) (skipn (List.length got) content) with
              | [] => Some (dir, returns t got)
              | more => Some (dir, Task (Reading (got ++ more)) (t_calls t) (t_answers t))
              end
          end
      | Reading _, ReadFails => Some (dir, gives_up t)
      (* src/tools/dxt-lossless-transform-cli/src/debug_format/compression/helpers.rs:63-64 and the slice in 71 *)
      | Missing, Compress st =>
          match compress_with_algorithm y (call_data c) ZStandard (call_level c) st with
          | Ok (ROk (buffer, size), _) => Some (dir, Task (Compressed (firstn (Z.to_nat size) buffer)) (t_calls t) (t_answers t))
          | _ => Some (dir, gives_up t)
          end
      (* src/tools/dxt-lossless-transform-cli/src/debug_format/compressed_data_cache.rs:91-96: the file is empty then *)
      | Compressed bytes, Create => Some (set_file dir file [], Task (Writing bytes 0) (t_calls t) (t_answers t))
      (* src/tools/dxt-lossless-transform-cli/src/debug_format/compression/helpers.rs:67-75: only a warning *)
      | Compressed bytes, CreateFails => Some (dir, returns t bytes)
      (* src/tools/dxt-lossless-transform-cli/src/debug_format/compressed_data_cache.rs:98-99 *)
      | Writing bytes written, Write n =>
          match dir file with
          | None => None
          | Some content =>
              let part := firstn (S n) (skipn written bytes) in
              let dir := set_file dir file (write_at content written part) in
              if List.length bytes <=? written + List.length part then Some (dir, returns t bytes)
              else Some (dir, Task (Writing bytes (written + List.length part)) (t_calls t) (t_answers t))
          end
      | Writing bytes _, WriteFails => Some (dir, returns t bytes)
      | _, _ => None
      end
  end.

Fixpoint replace_nth {A} (n : nat) (x : A) (l : list A) : list A :=
  match l, n with [], _ => [] | _ :: l, O => x :: l | z :: l, S n => z :: replace_nth n x l end.
(** A schedule: whose turn it is and what happens. Turns that are not possible
    are passed over. The tool may be stopped at any time, so every schedule also
    describes a run that was stopped after it.
    src/tools/dxt-lossless-transform-cli/src/commands/debug_bc3/benchmark.rs:94-115 *)
Fixpoint run (schedule : list (nat * action L)) (dir : data_cache) (ts : list task) : data_cache * list task :=
  match schedule with
  | [] => (dir, ts)
  | (i, a) :: schedule =>
      match nth_error ts i with
      | None => run schedule dir ts
      | Some t =>
          match turn a dir t with
          | None => run schedule dir ts
          | Some (dir, t) => run schedule dir (replace_nth i t ts)
          end
      end
  end.
(** src/tools/dxt-lossless-transform-cli/src/commands/debug_bc3/benchmark.rs:94-115 *)
Definition dry_run_tasks (calls : list (list call)) : list task := map (fun cs => Task Begin cs []) calls.
End Tasks.
