(** The Zstandard estimator: contexts, answers, and searches with it. *)
From Verif Require Import Base.Bytes Base.Res Model.Color565 Model.Kernel Model.Transform Model.Auto Model.Zstd
  Spec.YCoCg Spec.Layout Spec.Estimator Spec.Zstd Proofs.TransformFacts Proofs.KernelFun Proofs.AutoFacts Proofs.AutoProps Proofs.AutoTheorems Proofs.LtuFacts.
From Coq Require Import ZifyBool ZifyNat.
Open Scope list_scope.
Open Scope Z_scope.

(** ** Contexts *)
Lemma is_live_head : forall x l, is_live x (x :: l) = true.
Proof. intros x l. unfold is_live. cbn [existsb]. rewrite Z.eqb_refl. reflexivity. Qed.

Lemma session_alive : forall lv d n c r log, alive [] log = Some [] -> alive [] (log ++ session lv d n c r) = Some [].
Proof.
  assert (G : forall log live rest l, alive live log = Some l -> alive live (log ++ rest) = alive l rest).
  { induction log as [|q log IH]; intros live rest l A; cbn [app alive] in *; [congruence|].
    destruct q as [[x|]|x p z|x m s a|x]; try (apply IH; exact A).
    - destruct (is_live x live); [|discriminate]. apply IH. exact A.
    - destruct (is_live x live); [|discriminate]. apply IH. exact A.
    - destruct (is_live x live); [|discriminate]. apply IH. exact A. }
  intros lv d n c r log A. rewrite (G _ _ _ _ A). destruct c as [x|]; cbn [session alive]; [|reflexivity].
  rewrite !is_live_head. cbn [remove]. destruct (Z.eq_dec x x) as [_|N]; [reflexivity|contradiction].
Qed.

Lemma watched_compress : forall {L} (lib : zstd_lib L) lv d n st log,
  exists c r, zstd_compress (watched_lib lib) lv d n (st, log) =
    (fst (zstd_compress lib lv d n st), (snd (zstd_compress lib lv d n st), log ++ session lv d n c r)) /\
  fst (zstd_compress lib lv d n st) =
    match c with
    | None => RErr (ZStandardInternal 1)
    | Some _ => if z_is_error lib r then RErr (ZStandardInternal (z_get_error_code lib r)) else ROk r
    end.
Proof.
  intros L lib lv d n st log. unfold zstd_compress, zstd_setcommoncompressparams. cbn [watched_lib z_create_cctx z_set_parameter z_compress2 z_free_cctx z_is_error z_get_error_code fst snd].
  destruct (z_create_cctx lib st) as [[x|] s1]; cbn [fst snd].
  2: { exists None, 0. split; reflexivity. }
  match goal with |- context [z_compress2 lib x n d ?s] => destruct (z_compress2 lib x n d s) as [r s2] end. cbn [fst snd].
  exists (Some x), r. cbn [session]. destruct (z_is_error lib r); cbn [negb fst snd]; (split; [|reflexivity]);
    rewrite <- !app_assoc; reflexivity.
Qed.

Definition shown (lib_bound : Z -> Z) (is_err : Z -> bool) (code : Z -> Z) (lv : Z) (q : question) (a : result Z zstd_error) (log : list zstd_event) : Prop :=
  match q with
  | AskMax n => log = [] /\ a = ROk (if n =? 0 then 0 else lib_bound n)
  | AskSize d n =>
      if zlen d =? 0 then log = [] /\ a = ROk 0
      else exists c r, log = session lv d n c r /\
        a = match c with None => RErr (ZStandardInternal 1) | Some _ => if is_err r then RErr (ZStandardInternal (code r)) else ROk r end
  end.

Lemma ask_one : forall {L} (lib : zstd_lib L) lv q st log, exists a st' ev,
  (match q with AskMax n => max_compressed_size (zstd (watched_lib lib) lv) (st, log) n | AskSize d n => estimate_compressed_size (zstd (watched_lib lib) lv) (st, log) d n end)
    = (a, (st', log ++ ev)) /\
  (match q with AskMax n => max_compressed_size (zstd lib lv) st n | AskSize d n => estimate_compressed_size (zstd lib lv) st d n end) = (a, st') /\
  shown (z_compress_bound lib) (z_is_error lib) (z_get_error_code lib) lv q a ev.
Proof.
  intros L lib lv q st log. destruct q as [n|d n]; cbn [max_compressed_size estimate_compressed_size zstd shown].
  - unfold zstd_max. cbn [watched_lib z_compress_bound]. exists (ROk (if n =? 0 then 0 else z_compress_bound lib n)), st, [].
    rewrite app_nil_r. destruct (n =? 0); (split; [reflexivity|split; [reflexivity|split; reflexivity]]).
  - unfold zstd_estimate. destruct (zlen d =? 0).
    + exists (ROk 0), st, []. rewrite app_nil_r. split; [reflexivity|split; [reflexivity|split; reflexivity]].
    + destruct (watched_compress lib lv d n st log) as (c & r & E & A). exists (fst (zstd_compress lib lv d n st)), (snd (zstd_compress lib lv d n st)), (session lv d n c r).
      split; [exact E|]. split; [destruct (zstd_compress lib lv d n st); reflexivity|]. exists c, r. split; [reflexivity|exact A].
Qed.

Lemma ask_log : forall {L} (lib : zstd_lib L) lv qs st log, alive [] log = Some [] -> exists answers st' evs,
  ask (zstd (watched_lib lib) lv) qs (st, log) = (answers, (st', log ++ List.concat evs)) /\ ask (zstd lib lv) qs st = (answers, st') /\
  alive [] (log ++ List.concat evs) = Some [] /\
  List.length answers = List.length qs /\ List.length evs = List.length qs /\
  forall i q a ev, nth_error qs i = Some q -> nth_error answers i = Some a -> nth_error evs i = Some ev ->
    shown (z_compress_bound lib) (z_is_error lib) (z_get_error_code lib) lv q a ev.
Proof.
  intros L lib lv qs. induction qs as [|q qs IH]; intros st log A.
  - exists [], st, []. cbn [ask List.concat]. rewrite app_nil_r. repeat (split; [reflexivity || exact A|]). intros [|i]; discriminate.
  - destruct (ask_one lib lv q st log) as (a & s1 & ev & E1 & E2 & S). cbn [ask]. rewrite E1, E2.
    assert (A1 : alive [] (log ++ ev) = Some []).
    { destruct q as [n|d n]; cbn [shown] in S; [destruct S as (-> & _); rewrite app_nil_r; exact A|].
      destruct (zlen d =? 0); [destruct S as (-> & _); rewrite app_nil_r; exact A|]. destruct S as (c & r & -> & _). apply session_alive. exact A. }
    destruct (IH s1 (log ++ ev) A1) as (as' & s2 & evs & F1 & F2 & A2 & L1 & L2 & N). rewrite F1, F2.
    exists (a :: as'), s2, (ev :: evs). cbn [List.concat]. rewrite <- app_assoc in *. split; [reflexivity|]. split; [reflexivity|]. split; [exact A2|].
    cbn [List.length]. split; [congruence|]. split; [congruence|].
    intros [|i] q' a' ev' Q1 Q2 Q3; cbn [nth_error] in *; [congruence|]. exact (N i q' a' ev' Q1 Q2 Q3).
Qed.

(** ** The answers *)
Lemma zstd_levels : forall lv, (1 <= lv <= 22 -> zstd_new lv = ROk lv) /\ (~ 1 <= lv <= 22 -> zstd_new lv = RErr (ZInvalidLevel lv)).
Proof.
  intros lv. unfold zstd_new. split; intros H; [replace (negb _) with false by lia|replace (negb _) with true by lia]; reflexivity.
Qed.

(** ** Searches *)
Section NoErr.
Context {St Er : Type}.
Lemma loop_no_err : forall {S} (transform : S -> mem -> res mem) (estimate : mem -> St -> res (result Z Er * St)) order best bs last m st e m' st',
  (forall m st e st', estimate m st <> Ok (RErr e, st')) ->
  search_loop transform estimate order best bs last m st <> Ok (RErr e, m', st').
Proof.
  intros S transform estimate order. induction order as [|s order IH]; intros best bs last m st e m' st' N; cbn [search_loop]; [discriminate|].
  destruct (transform s m) as [m1| |]; cbn [bind]; try discriminate.
  destruct (estimate m1 st) as [[[z|e1] st1]| |] eqn:E; cbn [bind]; try discriminate.
  - destruct (z <? bs); apply IH; exact N.
  - exfalso. exact (N _ _ _ _ E).
Qed.
Lemma search_no_err : forall {S} v (e : estimator St Er) n (transform : S -> mem -> res mem) estimate same default order m st e1 m' st',
  (forall st, exists z, max_compressed_size e st n = (ROk z, st) /\ forall m st e st', estimate z m st <> Ok (RErr e, st')) ->
  search v e n transform estimate same default order m st <> Ok (RErr (SizeEstimationError e1), m', st').
Proof.
  intros S v e n transform estimate same default order m st e1 m' st' H. unfold search. destruct (H st) as (z & -> & N).
  destruct (_ && _); [discriminate|].
  match goal with |- context [search_loop ?a ?b ?c ?d ?f ?g ?h ?i] => pose proof (fun e0 m0 s0 => loop_no_err a b c d f g h i e0 m0 s0 N) as Q; destruct (search_loop a b c d f g h i) as [[[[[best last]|e0] m1] st1]| |] end.
  - cbn [bind]. destruct (same best last); [discriminate|]. destruct (transform best m1); cbn [bind]; discriminate.
  - cbn [bind]. exfalso. exact (Q _ _ _ eq_refl).
  - discriminate.
  - discriminate.
Qed.
End NoErr.

Section Zst.
Context {L : Type} (lib : zstd_lib L) (lv : Z).
Hypothesis K : keeps_promise lib.
Lemma estimate_no_err : forall n scratch p (m : mem) st e st' k, 0 <= k <= n -> (n = 0 \/ scratch = z_compress_bound lib n) ->
  estimate_at (zstd lib lv) p k scratch m st <> Ok (RErr e, st').
Proof.
  intros n scratch p m st e st' k Hk Hs. unfold estimate_at. destruct (mload m p k) as [d| |] eqn:M; cbn [bind]; try discriminate.
  apply mload_len in M. cbn [estimate_compressed_size zstd]. unfold zstd_estimate. destruct (zlen d =? 0) eqn:Z0; [discriminate|].
  pose proof (zlen_nonneg _ d). destruct Hs as [Hs|Hs]; [lia|]. destruct K as (K1 & K2 & K3). unfold zstd_compress.
  destruct (z_create_cctx lib st) as [[x|] s1] eqn:C; [|exfalso; apply (K1 st); rewrite C; reflexivity].
  match goal with |- context [z_compress2 lib ?a ?b ?c ?s] => pose proof (K2 a b c s) as Q; destruct (z_compress2 lib a b c s) as [r s2] end.
  cbn [fst] in Q. rewrite Q; [discriminate|]. rewrite Hs. apply K3. lia.
Qed.
Lemma max_ok : forall n st, 0 <= n -> exists z, max_compressed_size (zstd lib lv) st n = (ROk z, st) /\ (n = 0 /\ z = 0 \/ n <> 0 /\ z = z_compress_bound lib n).
Proof.
  intros n st Hn. cbn [max_compressed_size zstd]. unfold zstd_max. destruct (n =? 0) eqn:E; eexists; (split; [reflexivity|]); [left|right]; (split; [lia|reflexivity]).
Qed.

Lemma zstd_no_err1 : forall c v all m st m' st' e1 p q len, 0 <= len ->
  transform_bc1_auto_ptr c v (zstd lib lv) all p q len m st <> Ok (RErr (SizeEstimationError e1), m', st').
Proof.
  intros c v all m st m' st' e1 p q len Hl. unfold transform_bc1_auto_ptr. apply search_no_err. intros s.
  destruct (max_ok (len / 2) s ltac:(lia)) as (z & E & Z0). exists z. split; [exact E|]. intros m0 s0 e0 s1. apply (estimate_no_err (len / 2)); [lia|tauto].
Qed.
Lemma zstd_no_err2 : forall c v all m st m' st' e1 p q len, 0 <= len ->
  transform_bc2_auto_ptr c v (zstd lib lv) all p q len m st <> Ok (RErr (SizeEstimationError e1), m', st').
Proof.
  intros c v all m st m' st' e1 p q len Hl. unfold transform_bc2_auto_ptr. apply search_no_err. intros s.
  destruct (max_ok (len / 4) s ltac:(lia)) as (z & E & Z0). exists z. split; [exact E|]. intros m0 s0 e0 s1.
  destruct (ptr_add m0 q (len / 2)); cbn [bind]; try discriminate. apply (estimate_no_err (len / 4)); [lia|tauto].
Qed.
Lemma zstd_no_err3 : forall c v all m st m' st' e1 p q len, 0 <= len ->
  transform_bc3_auto_ptr c v (zstd lib lv) all p q len m st <> Ok (RErr (SizeEstimationError e1), m', st').
Proof.
  intros c v all m st m' st' e1 p q len Hl. unfold transform_bc3_auto_ptr. apply search_no_err. intros s.
  destruct (max_ok (len / 4) s ltac:(lia)) as (z & E & Z0). exists z. split; [exact E|]. intros m0 s0 e0 s1. unfold estimate_bc3.
  pose proof (fun m st e st' => estimate_no_err (len / 4) z q m st e st' (len / 16 * 2) ltac:(lia) ltac:(tauto)) as N1.
  destruct (estimate_at (zstd lib lv) q (len / 16 * 2) z m0 s0) as [[[a|ea] sa]| |] eqn:A; cbn [bind]; try discriminate; [|exfalso; exact (N1 _ _ _ _ A)].
  destruct (ptr_add m0 q (len / 2)) as [p2| |]; cbn [bind]; try discriminate.
  pose proof (fun m st e st' => estimate_no_err (len / 4) z p2 m st e st' (len / 16 * 4) ltac:(lia) ltac:(tauto)) as N2.
  destruct (estimate_at (zstd lib lv) p2 (len / 16 * 4) z m0 sa) as [[[b|eb] sb]| |] eqn:B; cbn [bind]; try discriminate; [|exfalso; exact (N2 _ _ _ _ B)].
  destruct (_ <=? _); [discriminate|]. destruct (c_debug c); discriminate.
Qed.
End Zst.

Lemma checked_err : forall {St Er S} block (run : ptr -> ptr -> Z -> mem -> St -> res (result S (determine_error Er) * mem * St)) (x out : list byte) st e y st',
  auto_checked block run x out st = Ok (RErr (DetermineBestTransform e), y, st') -> exists m', run (Ptr BIn 0) (Ptr BOut 0) (zlen x) (Mem x [] out) st = Ok (RErr e, m', st').
Proof.
  intros St Er S block run x out st e y st' H. unfold auto_checked in H. destruct (negb _); [discriminate|]. destruct (_ <? _); [discriminate|].
  destruct (run _ _ _ _ _) as [[[[s|e1] m] st1]| |]; cbn [bind] in H; try discriminate. injection H as <- _ <-. exists m. reflexivity.
Qed.

Lemma log_max : forall {Er} (l : list (call Er)) n k, l = [AskedMax n (ROk k)] -> forall rest a, l = AskedMax n a :: rest -> a = ROk k.
Proof. intros Er l n k -> rest a H. injection H as <- _. reflexivity. Qed.

Lemma search_alloc : forall {St Er S} v (e : estimator St Er) n (transform : S -> mem -> res mem) estimate same default order m st m' st' z,
  max_compressed_size e st n = (ROk z, st) -> (z = 0 \/ alloc_ok v z = true) ->
  search v e n transform estimate same default order m st <> Ok (RErr AllocateError, m', st').
Proof.
  intros St Er S v e n transform estimate same default order m st m' st' z M A. unfold search. rewrite M.
  replace (negb (z =? 0) && negb (alloc_ok v z)) with false by (destruct A as [-> | ->]; [reflexivity|rewrite Bool.andb_false_r; reflexivity]).
  match goal with |- context [search_loop ?a ?b ?c ?d ?f ?g ?h ?i] => destruct (search_loop a b c d f g h i) as [[[[[best last]|e0] m1] st1]| |] end;
    cbn [bind]; try discriminate. destruct (same best last); [discriminate|]. destruct (transform best m1); cbn [bind]; discriminate.
Qed.

Lemma zalloc : forall {L} (lib : zstd_lib L) lv v n st, 0 <= n -> can_allocate lib v n -> exists z, max_compressed_size (zstd lib lv) st n = (ROk z, st) /\ (z = 0 \/ alloc_ok v z = true).
Proof.
  intros L lib lv v n st Hn A. destruct (max_ok lib lv n st Hn) as (z & E & C). exists z. split; [exact E|]. destruct C as [(-> & ->)|(N & ->)]; [left; reflexivity|].
  destruct A as [A|A]; [contradiction|right; exact A].
Qed.

Lemma zstd_bc1_auto : forall (L : Type) (lib : zstd_lib L) (lv : Z) (c : cfg) (v : env) (all : bool) (x out : list byte) (st : L),
  keeps_promise lib -> cpu_ok c -> (c_debug c = true -> x <> []) -> zlen x mod 8 = 0 -> zlen x <= zlen out -> can_allocate lib v (zlen x / 2) ->
  exists s y st', transform_bc1_auto c v (zstd lib lv) all x out st = Ok (ROk s, y, st').
Proof.
  intros L lib lv c v all x out st K KC HD Hm Ho A. pose proof (zlen_nonneg _ x).
  destruct (lC19_bc1_estimator_errors _ _ c v (zstd lib lv) all x out st KC HD Hm Ho) as (r & y & st' & log & E & _ & C).
  destruct r as [s|[n|a b|[|e]]]; [exists s, y, st'; exact E|contradiction|contradiction| |].
  - exfalso. unfold transform_bc1_auto in E. apply checked_err in E. destruct E as (m' & E).
    destruct (zalloc lib lv v (zlen x / 2) st ltac:(lia) A) as (z & M & Q). exact (search_alloc _ _ _ _ _ _ _ _ _ _ _ _ _ M Q E).
  - exfalso. unfold transform_bc1_auto in E. apply checked_err in E. destruct E as (m' & E). exact (zstd_no_err1 lib lv K _ _ _ _ _ _ _ _ _ _ (zlen x) (zlen_nonneg _ x) E).
Qed.
Lemma zstd_bc2_auto : forall (L : Type) (lib : zstd_lib L) (lv : Z) (c : cfg) (v : env) (all : bool) (x out : list byte) (st : L),
  keeps_promise lib -> cpu_ok c -> (c_avx512bw c = true -> c_avx512vl c = true) -> zlen x mod 16 = 0 -> zlen x <= zlen out -> can_allocate lib v (zlen x / 4) ->
  exists s y st', transform_bc2_auto c v (zstd lib lv) all x out st = Ok (ROk s, y, st').
Proof.
  intros L lib lv c v all x out st K KC HD Hm Ho A. pose proof (zlen_nonneg _ x).
  destruct (lC19_bc2_estimator_errors _ _ c v (zstd lib lv) all x out st KC HD Hm Ho) as (r & y & st' & log & E & _ & C).
  destruct r as [s|[n|a b|[|e]]]; [exists s, y, st'; exact E|contradiction|contradiction| |].
  - exfalso. unfold transform_bc2_auto in E. apply checked_err in E. destruct E as (m' & E).
    destruct (zalloc lib lv v (zlen x / 4) st ltac:(lia) A) as (z & M & Q). exact (search_alloc _ _ _ _ _ _ _ _ _ _ _ _ _ M Q E).
  - exfalso. unfold transform_bc2_auto in E. apply checked_err in E. destruct E as (m' & E). exact (zstd_no_err2 lib lv K _ _ _ _ _ _ _ _ _ _ (zlen x) (zlen_nonneg _ x) E).
Qed.
Lemma zstd_bc3_auto : forall (L : Type) (lib : zstd_lib L) (lv : Z) (c : cfg) (v : env) (all : bool) (x out : list byte) (st : L),
  keeps_promise lib -> (forall k n d s, 2 * fst (z_compress2 lib k n d s) <= usize_max v \/ z_is_error lib (fst (z_compress2 lib k n d s)) = true) -> 0 <= usize_max v ->
  cpu_ok c -> (c_debug c = true -> x <> []) -> zlen x mod 16 = 0 -> zlen x <= zlen out -> can_allocate lib v (zlen x / 4) ->
  exists s y st', transform_bc3_auto c v (zstd lib lv) all x out st = Ok (ROk s, y, st').
Proof.
  intros L lib lv c v all x out st K B U KC HD Hm Ho A. pose proof (zlen_nonneg _ x).
  assert (B' : forall st d n z st', estimate_compressed_size (zstd lib lv) st d n = (ROk z, st') -> 2 * z <= usize_max v).
  { intros s d n z s' E. cbn [estimate_compressed_size zstd] in E. unfold zstd_estimate in E. destruct (zlen d =? 0); [injection E as <- _; lia|].
    unfold zstd_compress in E. destruct (z_create_cctx lib s) as [[k|] s1]; [|discriminate].
    match type of E with context [z_compress2 lib ?a ?b ?c ?d] => pose proof (B a b c d) as Q; destruct (z_compress2 lib a b c d) as [r s2] end.
    cbn [fst] in Q. destruct (z_is_error lib r); cbn [negb] in E; [discriminate|]. injection E as <- _. destruct Q as [Q|Q]; [exact Q|discriminate]. }
  destruct (lC19_bc3_estimator_errors _ _ c v (zstd lib lv) all x out st KC HD B' Hm Ho) as (r & y & st' & log & E & _ & C).
  destruct r as [s|[n|a b|[|e]]]; [exists s, y, st'; exact E|contradiction|contradiction| |].
  - exfalso. unfold transform_bc3_auto in E. apply checked_err in E. destruct E as (m' & E).
    destruct (zalloc lib lv v (zlen x / 4) st ltac:(lia) A) as (z & M & Q). exact (search_alloc _ _ _ _ _ _ _ _ _ _ _ _ _ M Q E).
  - exfalso. unfold transform_bc3_auto in E. apply checked_err in E. destruct E as (m' & E). exact (zstd_no_err3 lib lv K _ _ _ _ _ _ _ _ _ _ (zlen x) (zlen_nonneg _ x) E).
Qed.

Lemma zstd_answers : forall (L : Type) (lib : zstd_lib L) (lv : Z) (st : L),
  (forall n, max_compressed_size (zstd lib lv) st n = (ROk (if n =? 0 then 0 else z_compress_bound lib n), st)) /\
  (forall n, zstd_estimate lib lv None n st = (ROk 0, st)) /\
  (forall n, estimate_compressed_size (zstd lib lv) st [] n = (ROk 0, st)) /\
  (forall d n, d <> [] -> exists c r st',
     estimate_compressed_size (zstd (watched_lib lib) lv) (st, []) d n =
     (match c with
      | None => RErr (ZStandardInternal 1)
      | Some _ => if z_is_error lib r then RErr (ZStandardInternal (z_get_error_code lib r)) else ROk r
      end, (st', session lv d n c r))).
Proof.
  intros L lib lv st. split; [|split; [reflexivity|split; [reflexivity|]]].
  - intros n. cbn [max_compressed_size zstd]. unfold zstd_max. destruct (n =? 0); reflexivity.
  - intros d n N. cbn [estimate_compressed_size zstd]. unfold zstd_estimate.
    replace (zlen d =? 0) with false by (destruct d; [contradiction|unfold zlen; cbn [List.length]; lia]).
    destruct (watched_compress lib lv d n st []) as (c & r & E & A). exists c, r, (snd (zstd_compress lib lv d n st)). rewrite E, A. reflexivity.
Qed.
