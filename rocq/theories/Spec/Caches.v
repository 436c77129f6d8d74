(** How the size cache is used: threads that share it, runs of the tool one after
    another, and searches with and without it. *)
From Verif Require Import Base.Bytes Base.Res Model.Transform Model.Auto Model.Handlers Model.Inspect Model.Zstd Model.Caches Spec.Estimator.
Open Scope list_scope.
Open Scope Z_scope.

(** ** One thread after another, in any order *)

(** A size that is asked for: of these bytes, when compressed like that, with a
    scratch buffer of some length. *)
Record request := Request { q_algorithm : algorithm; q_level : Z; q_data : list byte; q_scratch : Z }.
Definition request_key (hash : list byte -> Z) (q : request) : size_key := (hash (q_data q), q_level q, q_algorithm q).

(** A thread looks into the cache. If there is nothing, it works the size out,
    and then puts it into the cache. Each of the two is one action: the cache is
    locked once for each. *)
Inductive action := Looks (thread : nat) (q : request) | Works (thread : nat).
Record shared := Shared { s_cache : size_cache; s_waiting : nat -> option request; s_answers : list (request * result Z debug_error) }.

Section Actions.
Variable hash : list byte -> Z.
Variable size : request -> result Z debug_error.      (** what working it out gives *)

Definition waits (s : shared) (t : nat) (q : option request) : nat -> option request :=
  fun u => if Nat.eqb u t then q else s_waiting s u.
Definition act (s : shared) (a : action) : shared :=
  match a with
  | Looks t q =>
      match s_waiting s t with
      | Some _ => s                                     (** it has not finished the last one *)
      | None =>
          match cache_get (s_cache s) (request_key hash q) with
          | Some n => Shared (s_cache s) (s_waiting s) (s_answers s ++ [(q, ROk n)])
          | None => Shared (s_cache s) (waits s t (Some q)) (s_answers s)
          end
      end
  | Works t =>
      match s_waiting s t with
      | None => s
      | Some q =>
          match size q with
          | RErr e => Shared (s_cache s) (waits s t None) (s_answers s ++ [(q, RErr e)])
          | ROk n => Shared (cache_insert (s_cache s) (request_key hash q) n) (waits s t None) (s_answers s ++ [(q, ROk n)])
          end
      end
  end.
Definition acts (m : size_cache) (l : list action) : shared := fold_left act l (Shared m (fun _ => None) []).

(** One run of the tool: the cache file is read (if it can be opened), threads do
    their work, and the cache file is written, unless the process ends before
    that. Result: the answers, and the cache file. *)
Record run := Run { r_opens : bool; r_actions : list action; r_saving : option save_fate }.
Definition one_run (b : bincode) (r : run) (file : option (list byte)) : list (request * result Z debug_error) * option (list byte) :=
  let '(_, m) := load_from_disk b (r_opens r) file [] in
  let s := acts m (r_actions r) in
  (s_answers s, match r_saving r with None => file | Some fate => snd (save_to_disk b fate (s_cache s) file) end).
Fixpoint runs (b : bincode) (l : list run) (file : option (list byte)) : list (request * result Z debug_error) * option (list byte) :=
  match l with
  | [] => ([], file)
  | r :: l => let '(a1, file) := one_run b r file in let '(a2, file) := runs b l file in (a1 ++ a2, file)
  end.
(** What is asked in a run. *)
Definition asks (a : action) : list request := match a with Looks _ q => [q] | Works _ => [] end.
Definition asked (l : list run) : list request := flat_map (fun r => flat_map asks (r_actions r)) l.
End Actions.

(** ** What bincode promises *)

(** A map that the program can hold: numbers fit their types (u128, i32, usize),
    no key twice, and the number of entries is a usize. *)
Definition in_range (k : size_key) (n : Z) : Prop :=
  0 <= fst (fst k) < 2 ^ 128 /\ - 2 ^ 31 <= snd (fst k) < 2 ^ 31 /\ 0 <= n < 2 ^ 64.
Definition holdable (m : size_cache) : Prop :=
  NoDup (map fst m) /\ Forall (fun e => in_range (fst e) (snd e)) m /\ zlen m < 2 ^ 64.
(** Reading what was written gives the same map, in whatever order the entries
    come; reading only a part of what was written fails. *)
Definition reads_back (b : bincode) : Prop :=
  (forall m, holdable m -> exists m', decode b (encode b m) = Some m' /\ holdable m' /\ forall k, cache_get m' k = cache_get m k) /\
  (forall m n, holdable m -> (n < List.length (encode b m))%nat -> decode b (firstn n (encode b m)) = None).

(** ** Searches *)

(** An estimator whose answers do not depend on its state. *)
Definition steady {St Er} (e : estimator St Er) : Prop :=
  (forall st st' n, fst (max_compressed_size e st n) = fst (max_compressed_size e st' n)) /\
  (forall st st' d n, fst (estimate_compressed_size e st d n) = fst (estimate_compressed_size e st' d n)).

(** Sizes that were worked out: the key's level and algorithm, the bytes, the answer. *)
Definition measurement : Type := Z * algorithm * list byte * result Z debug_error.
Definition measured (a : algorithm) (level : Z) (log : list (call debug_error)) : list measurement :=
  flat_map (fun k => match k with AskedSize d _ r => [(level, a, d, r)] | AskedMax _ _ => [] end) log.
(** Everything in the cache was measured at some time. *)
Definition remembers (hash : list byte -> Z) (m : size_cache) (past : list measurement) : Prop :=
  forall h level a n, cache_get m (h, level, a) = Some n -> exists d, h = hash d /\ In (level, a, d, ROk n) past.
(** Bytes with the same hash gave the same answer: there is no hash collision
    between measured bytes, and the same bytes never gave two answers. *)
Definition no_clash (hash : list byte -> Z) (past : list measurement) : Prop :=
  forall level a d r d' r', In (level, a, d, r) past -> In (level, a, d', r') past -> hash d = hash d' -> r = r'.
