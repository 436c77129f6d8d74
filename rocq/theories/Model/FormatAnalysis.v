(** The analyze-formats command of the command line tool,
    src/tools/dxt-lossless-transform-cli/src/commands/debug_format_analysis.rs.
    Not modelled: messages and percentages (floating point). *)
From Verif Require Import Base.Bytes Base.Res Model.Kernel Model.Transform Model.Auto Model.Embed Model.Bundle Model.Dds Model.Handlers Model.Cli Model.Inspect.
From Coq Require Import String.
Open Scope list_scope.
Open Scope Z_scope.

(** src/tools/dxt-lossless-transform-cli/src/commands/debug_format_analysis.rs:32-55 *)
Inductive format_key := KUnknown | KBc1 | KBc2 | KBc3 | KBc7 | KBc6H | KRgba8888 | KBgra8888 | KBgr888 | KBc4 | KBc5.
(** src/tools/dxt-lossless-transform-cli/src/commands/debug_format_analysis.rs:34-54: their numbers, by which they are ordered *)
Definition key_number (k : format_key) : Z :=
  match k with
  | KUnknown => 0 | KBc1 => 1 | KBc2 => 2 | KBc3 => 3 | KBc7 => 4 | KBc6H => 5 | KRgba8888 => 6 | KBgra8888 => 7 | KBgr888 => 8 | KBc4 => 9 | KBc5 => 10
  end.
(** src/tools/dxt-lossless-transform-cli/src/commands/debug_format_analysis.rs:57-79 *)
Definition format_key_from (f : option transform_format) : format_key :=
  match f with
  | Some FBc1 => KBc1
  | Some FBc2 => KBc2
  | Some FBc3 => KBc3
  | Some FBc7 => KBc7
  | Some FBc6H => KBc6H
  | Some FRgba8888 => KRgba8888
  | Some FBgra8888 => KBgra8888
  | Some FBgr888 => KBgr888
  | Some FBc4 => KBc4
  | Some FBc5 => KBc5
  | None => KUnknown
  end.
(** src/tools/dxt-lossless-transform-cli/src/commands/debug_format_analysis.rs:83-97 *)
Definition display_name (k : format_key) : string :=
  match k with
  | KUnknown => "Unknown" | KBc1 => "Bc1" | KBc2 => "Bc2" | KBc3 => "Bc3" | KBc7 => "Bc7" | KBc6H => "Bc6H" | KRgba8888 => "Rgba8888"
  | KBgra8888 => "Bgra8888" | KBgr888 => "Bgr888" | KBc4 => "Bc4" | KBc5 => "Bc5"
  end%string.

(** src/tools/dxt-lossless-transform-cli/src/commands/debug_format_analysis.rs:24-27. Simplification: [count], a [usize] that counts files in memory, does
    not overflow. *)
Record format_stats := FormatStats { count : Z; total_size : Z }.
(** The hash map (src/tools/dxt-lossless-transform-cli/src/commands/debug_format_analysis.rs:118), as a list with at most one entry for a key. *)
Definition stats_map : Type := list (format_key * format_stats).

(** [+] of [u64]: debug builds panic on overflow;
    src/tools/dxt-lossless-transform-cli/src/commands/debug_format_analysis.rs:159 *)
Definition add_u64 (debug : bool) (a b : Z) : res Z :=
  if a + b <? 2 ^ 64 then Ok (a + b) else if debug then Panic "attempt to add with overflow" else Ok ((a + b) mod 2 ^ 64).
(** src/tools/dxt-lossless-transform-cli/src/commands/debug_format_analysis.rs:157-159 *)
Fixpoint stats_add (debug : bool) (m : stats_map) (k : format_key) (file_size : Z) : res stats_map :=
  match m with
  | [] => do n <- add_u64 debug 0 file_size ;; Ok [(k, FormatStats 1 n)]
  | (k1, s) :: m1 =>
      if key_number k =? key_number k1 then do n <- add_u64 debug (total_size s) file_size ;; Ok ((k1, FormatStats (count s + 1) n) :: m1)
      else do m2 <- stats_add debug m1 k file_size ;; Ok ((k1, s) :: m2)
  end.

Section Files.
Variable debug : bool.
Variable inspectors : list inspector.                     (** all_handlers() *)
Variable utf8 : string -> bool.
Variable o : io.
Variable fs : files.
Variable file_size : components -> option Z.              (** metadata().len(), if it can be had *)
(** The order in which the hash map is gone through: any order. *)
Variable order : stats_map -> stats_map.

(** src/tools/dxt-lossless-transform-cli/src/commands/debug_format_analysis.rs:204-211 *)
Definition detect_file_format (p : components) : res (option transform_format) :=
  do r <- get_transform_format (fun _ => extract_lowercase_extension utf8 p) o (render p) inspectors AllFormats fs ;;
  Ok (match r with ROk (Some f) => Some f | ROk None => None | RErr _ => None end).

(** src/tools/dxt-lossless-transform-cli/src/commands/debug_format_analysis.rs:127-162: the statistics, and the number of files processed *)
Fixpoint analyze_files (entries : list components) (m : stats_map) (processed : Z) : res (stats_map * Z) :=
  match entries with
  | [] => Ok (m, processed)
  | p :: entries =>
      do detected <- detect_file_format p ;;
      do m <- stats_add debug m (format_key_from detected) (match file_size p with Some n => n | None => 0 end) ;;
      analyze_files entries m (processed + 1)
  end.

(** src/tools/dxt-lossless-transform-cli/src/commands/debug_format_analysis.rs:169 [sum] *)
Fixpoint sum_u64 (l : list Z) (acc : Z) : res Z :=
  match l with [] => Ok acc | n :: l => do acc <- add_u64 debug acc n ;; sum_u64 l acc end.
(** [sort_by_key], which keeps the order of equal keys;
    src/tools/dxt-lossless-transform-cli/src/commands/debug_format_analysis.rs:177 *)
Fixpoint insert_sorted (x : format_key * format_stats) (l : stats_map) : stats_map :=
  match l with
  | [] => [x]
  | y :: l1 => if key_number (fst x) <=? key_number (fst y) then x :: l else y :: insert_sorted x l1
  end.
Definition sort_by_key (l : stats_map) : stats_map := fold_right insert_sorted [] l.

(** What is printed: files processed and found, the total size, and a line for
    each format.
    src/tools/dxt-lossless-transform-cli/src/commands/debug_format_analysis.rs:165-200 *)
Record analysis := Analysis { processed_files : Z; total_files : Z; whole_size : Z; lines : list (string * Z * Z) }.
(** src/tools/dxt-lossless-transform-cli/src/commands/debug_format_analysis.rs:101-201; [base] is what is at the path: nothing, a file or a directory *)
Definition handle_format_analysis (dir : components) (base : option tree) : res (result analysis unit) :=
  match base with
  | None => Ok (RErr tt)
  | Some Leaf => Ok (RErr tt)
  | Some t =>
      let entries := find_all_files dir t in
      do r <- analyze_files entries [] 0 ;;
      let '(m, processed) := r in
      do total <- sum_u64 (map (fun x => total_size (snd x)) (order m)) 0 ;;
      Ok (ROk (Analysis processed (zlen entries) total
        (map (fun x => (display_name (fst x), count (snd x), total_size (snd x))) (sort_by_key (order m)))))
  end.
End Files.
