(** C53: the Zstandard size estimator. [lib] is the library, which may be
    anything except where [keeps_promise] is assumed. *)
From Verif Require Import Base.Bytes Base.Res Model.Color565 Model.Kernel Model.Transform Model.Auto Model.Zstd
  Spec.Estimator Spec.Zstd Proofs.ZstdFacts.

(** Exactly the levels 1 to 22 are accepted, and the named constructors use
    levels among them. *)
Theorem C53_levels : forall lv,
  (1 <= lv <= 22 -> zstd_new lv = ROk lv) /\ (~ 1 <= lv <= 22 -> zstd_new lv = RErr (ZInvalidLevel lv)) /\
  zstd_new zstd_new_fast = ROk 1 /\ zstd_new zstd_new_best = ROk 22 /\ zstd_new zstd_default = ROk 3.
Proof. intros lv. destruct (zstd_levels lv) as (A & B). split; [exact A|]. split; [exact B|]. repeat split. Qed.
Print Assumptions C53_levels.

(** Whatever is asked, in whatever order: every context that is created is freed,
    and none is used or freed when it does not exist. Watching the library does
    not change the answers. *)
Theorem C53_contexts : forall (L : Type) (lib : zstd_lib L) (lv : Z) (qs : list question) (st : L), exists answers st' log,
  ask (zstd (watched_lib lib) lv) qs (st, []) = (answers, (st', log)) /\ ask (zstd lib lv) qs st = (answers, st') /\
  alive [] log = Some [].
Proof.
  intros L lib lv qs st. destruct (ask_log lib lv qs st [] eq_refl) as (a & st' & evs & A & B & C & _). exists a, st', (List.concat evs). split; [exact A|]. split; [exact B|exact C].
Qed.
Print Assumptions C53_contexts.

(** The answer to one question, and what the library was asked to do for it.
    Nothing, if there are no bytes. *)
Theorem C53_answers : forall (L : Type) (lib : zstd_lib L) (lv : Z) (st : L),
  (forall n, max_compressed_size (zstd lib lv) st n = (ROk (if n =? 0 then 0 else z_compress_bound lib n), st)) /\
  (forall n, zstd_estimate lib lv None n st = (ROk 0, st)) /\
  (forall n, estimate_compressed_size (zstd lib lv) st [] n = (ROk 0, st)) /\
  (forall d n, d <> [] -> exists c r st',
     estimate_compressed_size (zstd (watched_lib lib) lv) (st, []) d n =
     (match c with
      | None => RErr (ZStandardInternal 1)
      | Some _ => if z_is_error lib r then RErr (ZStandardInternal (z_get_error_code lib r)) else ROk r
      end, (st', session lv d n c r))).
Proof. exact (@zstd_answers). Qed.
Print Assumptions C53_answers.

(** If the library keeps its promise and memory can be allocated, the searches
    with this estimator succeed: the scratch buffer is always large enough. *)
Theorem C53_bc1_search : forall (L : Type) (lib : zstd_lib L) (lv : Z) (c : cfg) (v : env) (all : bool) (x out : list byte) (st : L),
  keeps_promise lib -> cpu_ok c -> (c_debug c = true -> x <> []) -> zlen x mod 8 = 0 -> zlen x <= zlen out -> can_allocate lib v (zlen x / 2) ->
  exists s y st', transform_bc1_auto c v (zstd lib lv) all x out st = Ok (ROk s, y, st').
Proof. exact zstd_bc1_auto. Qed.
Print Assumptions C53_bc1_search.
Theorem C53_bc2_search : forall (L : Type) (lib : zstd_lib L) (lv : Z) (c : cfg) (v : env) (all : bool) (x out : list byte) (st : L),
  keeps_promise lib -> cpu_ok c -> (c_avx512bw c = true -> c_avx512vl c = true) -> zlen x mod 16 = 0 -> zlen x <= zlen out -> can_allocate lib v (zlen x / 4) ->
  exists s y st', transform_bc2_auto c v (zstd lib lv) all x out st = Ok (ROk s, y, st').
Proof. exact zstd_bc2_auto. Qed.
Print Assumptions C53_bc2_search.
Theorem C53_bc3_search : forall (L : Type) (lib : zstd_lib L) (lv : Z) (c : cfg) (v : env) (all : bool) (x out : list byte) (st : L),
  keeps_promise lib -> (forall k n d s, 2 * fst (z_compress2 lib k n d s) <= usize_max v \/ z_is_error lib (fst (z_compress2 lib k n d s)) = true) -> 0 <= usize_max v ->
  cpu_ok c -> (c_debug c = true -> x <> []) -> zlen x mod 16 = 0 -> zlen x <= zlen out -> can_allocate lib v (zlen x / 4) ->
  exists s y st', transform_bc3_auto c v (zstd lib lv) all x out st = Ok (ROk s, y, st').
Proof. exact zstd_bc3_auto. Qed.
Print Assumptions C53_bc3_search.

(** A library that hands out contexts 0, 1, 2, ..., "compresses" by dropping
    repeated neighbours, and fails (with a negative answer) if that does not fit. *)
Fixpoint dedup (d : list byte) : Z := match d with a :: (b :: _) as r => (if Byte.eqb a b then 0 else 1) + dedup r | [_] => 1 | [] => 0 end.
Definition toy : zstd_lib Z := {|
  z_compress_bound := fun n => n + 1;
  z_create_cctx := fun st => (Some st, st + 1);
  z_set_parameter := fun _ _ _ st => st;
  z_compress2 := fun _ n d st => (if dedup d <=? n then dedup d else -70, st);
  z_free_cctx := fun _ st => st;
  z_is_error := fun r => r <? 0;
  z_get_error_code := fun r => - r |}.
Example C53_case :
  let d := map (fun i => lo8 (i / 2)) (zseq 0 10) in
  ask (zstd (watched_lib toy) 7) [AskMax 10; AskSize d 11; AskSize d 3; AskSize [] 0] (0, []) =
    ([ROk 11; ROk 5; RErr (ZStandardInternal 70); ROk 0], (2, session 7 d 11 (Some 0) 5 ++ session 7 d 3 (Some 1) (-70))).
Proof. vm_compute. reflexivity. Qed.
Lemma dedup_le : forall d, 0 <= dedup d <= zlen d.
Proof.
  induction d as [|a [|b d] IH]; [split; discriminate|unfold zlen; cbn; lia|]. cbn [dedup] in *. unfold zlen in *. cbn [List.length] in *. destruct (Byte.eqb a b); lia.
Qed.
Example C53_promise : let x := map (fun i => lo8 (i / 3 * 37)) (zseq 0 32) in
  let c := Cfg true X86_64 false true true true true true true true x00 in let v := Env (2 ^ 64 - 1) (fun n => n <=? 1000) in
  keeps_promise toy /\ can_allocate toy v (zlen x / 2) /\
  match transform_bc1_auto c v (zstd toy 1) true x x 0 with Ok (ROk s, _, st) => st = 8 /\ settings_eqb s default_settings = false | _ => False end.
Proof.
  cbv zeta. split; [|split; [right; vm_compute; reflexivity|vm_compute; split; reflexivity]].
  split; [intros st; discriminate|]. split; [|intros a b H; cbn; lia].
  intros k n d s H. cbn [z_compress_bound z_compress2 z_is_error toy fst] in *. pose proof (dedup_le d).
  replace (dedup d <=? n) with true by lia. lia.
Qed.
