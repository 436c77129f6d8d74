(** What a report of the statistics command has to say. *)
From Verif Require Import Base.Bytes Base.Res Model.Transform Model.Auto Model.Handlers Model.Inspect Model.Zstd Model.Caches Model.Stats.
Open Scope list_scope.
Open Scope Z_scope.

(** [size d n]: the size of [d] is known to be [n]. [lay s d]: the bytes [d] as
    rearranged with the settings [s]. A report about [data] has the length of the
    data, its size as it is, the size with each of the settings [all], in order,
    and the size with the recommended settings [api]. *)
Definition reports {S} (size : list byte -> Z -> Prop) (lay : S -> list byte -> list byte) (all : list S) (api : S) (data : list byte)
    (r : stats_result S) : Prop :=
  original_uncompressed_size r = zlen data /\ size data (original_compressed_size r) /\
  map t_options (all_results r) = all /\ (forall t, In t (all_results r) -> size (lay (t_options t) data) (t_size t)) /\
  t_options (api_recommended_result r) = api /\ size (lay api data) (t_size (api_recommended_result r)).

(** [b] is the first of the smallest ones of [l]. *)
Definition first_smallest {S} (l : list (transform_result S)) (b : transform_result S) : Prop :=
  exists before after, l = before ++ b :: after /\
    (forall t, In t before -> t_size b < t_size t) /\ (forall t, In t after -> t_size b <= t_size t).

(** Every size in the cache was once answered by the estimator of that algorithm
    and level for bytes with that hash. *)
Definition all_measured {L} (hash : list byte -> Z) (lib : zstd_lib L) (matches : list byte -> Z) (m : size_cache) : Prop :=
  forall h level a n, cache_get m (h, level, a) = Some n ->
    exists e d st scratch, create_size_estimator lib matches a level = ROk e /\ h = hash d /\ fst (estimate_compressed_size e st d scratch) = ROk n.
