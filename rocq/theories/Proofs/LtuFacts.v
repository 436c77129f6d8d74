(** The bundled estimator: bounds, agreement with its C wrapper, and searches with it. *)
From Verif Require Import Base.Bytes Base.Res Model.Color565 Model.Kernel Model.Transform Model.Auto Model.CApi Model.Ltu
  Spec.YCoCg Spec.Layout Spec.Estimator Spec.Ltu Proofs.TransformFacts Proofs.KernelFun Proofs.AutoFacts Proofs.AutoProps Proofs.AutoTheorems.
From Coq Require Import ZifyBool ZifyNat.

Lemma ltu_est : forall matches d n st, (forall d, 0 <= matches d) ->
  estimate_compressed_size (ltu matches) st d n = (ROk (ltu_value matches d), st).
Proof.
  intros matches d n st M. cbn. unfold ltu_estimate, ltu_estimate_size, saturating_sub, ltu_value.
  pose proof (M d). destruct (zlen d =? 0) eqn:E; [|reflexivity]. do 2 f_equal. lia.
Qed.

Lemma ltu_est' : forall matches d n, (forall d, 0 <= matches d) -> ltu_estimate matches (Some d) n = ROk (ltu_value matches d).
Proof. intros matches d n M. pose proof (ltu_est matches d n tt M) as E. cbn [estimate_compressed_size ltu] in E. congruence. Qed.

Lemma lC45_ltu : forall (matches : list byte -> Z) (st : unit), (forall d, 0 <= matches d) ->
  (forall n, max_compressed_size (ltu matches) st n = (ROk 0, st)) /\
  (forall d scratch, exists z, estimate_compressed_size (ltu matches) st d scratch = (ROk z, st) /\
     0 <= z <= zlen d /\ z = ltu_value matches d) /\
  (forall scratch, ltu_estimate matches None scratch = ROk 0) /\
  (forall scratch, estimate_compressed_size (ltu matches) st [] scratch = (ROk 0, st)).
Proof.
  intros matches st M. split; [reflexivity|]. split; [|split; reflexivity].
  intros d n. exists (ltu_value matches d). split; [apply ltu_est; exact M|]. split; [|reflexivity].
  unfold ltu_value. pose proof (M d). pose proof (zlen_nonneg _ d). lia.
Qed.

Lemma lC45_order : forall (matches : list byte -> Z) (st : unit) (d d' : list byte) (n n' z z' : Z), (forall d, 0 <= matches d) ->
  estimate_compressed_size (ltu matches) st d n = (ROk z, st) -> estimate_compressed_size (ltu matches) st d' n' = (ROk z', st) ->
  zlen d = zlen d' -> matches d <= matches d' -> z' <= z /\ (matches d < matches d' -> matches d < zlen d -> z' < z).
Proof.
  intros matches st d d' n n' z z' M A B L H. rewrite ltu_est in A, B by exact M. injection A as <-. injection B as <-.
  unfold ltu_value. rewrite L. lia.
Qed.

Lemma lC45_c_wrapper : forall (matches : list byte -> Z) (st : unit), (forall d, 0 <= matches d) ->
  (forall n, ltu_max_compressed_size false n false = (0, Some 0)) /\
  (forall input n, exists z, ltu_estimate matches input n = ROk z /\ ltu_estimate_compressed_size matches false input n false = (0, Some z)) /\
  (forall (null_context null_out : bool) input n, null_context = true \/ null_out = true ->
     ltu_max_compressed_size null_context n null_out = (1, None) /\
     ltu_estimate_compressed_size matches null_context input n null_out = (1, None)) /\
  (forall n z, max_compressed_size (of_c_estimator (dltltu_new_size_estimator matches)) st n = (ROk z, st) <-> max_compressed_size (ltu matches) st n = (ROk z, st)) /\
  (forall d n z, estimate_compressed_size (of_c_estimator (dltltu_new_size_estimator matches)) st d n = (ROk z, st) <->
     estimate_compressed_size (ltu matches) st d n = (ROk z, st)).
Proof.
  intros matches st M. split; [reflexivity|]. split.
  { intros [d|] n; cbn; [|exists 0; split; reflexivity].
    unfold ltu_estimate_compressed_size, ltu_estimate. cbn [orb]. destruct (zlen d =? 0); eexists; split; reflexivity. }
  split. { intros [|] [|] input n [H|H]; try discriminate H; split; reflexivity. }
  split.
  { intros n z. cbn. split; intros H; injection H as <-; reflexivity. }
  intros d n z. cbn. unfold ltu_estimate_compressed_size, ltu_estimate. cbn [orb].
  destruct (zlen d =? 0); cbn; split; intros H; injection H as <-; reflexivity.
Qed.

(** ** Searches *)

(** the estimator, cut off above a size *)
Definition cut (b : Z) (matches : list byte -> Z) (d : list byte) : Z := if zlen d <=? b then matches d else zlen d.

Lemma cut_nonneg : forall b matches, (forall d, 0 <= matches d) -> forall d, 0 <= cut b matches d.
Proof. intros b matches M d. unfold cut. pose proof (M d). pose proof (zlen_nonneg _ d). destruct (zlen d <=? b); lia. Qed.

Lemma cut_value : forall b matches d, zlen d <= b -> ltu_value (cut b matches) d = ltu_value matches d.
Proof. intros b matches d H. unfold ltu_value, cut. replace (zlen d <=? b) with true by lia. reflexivity. Qed.

Lemma cut_bound : forall b matches d, 0 <= b -> (forall d, 0 <= matches d) -> ltu_value (cut b matches) d <= b.
Proof. intros b matches d B M. unfold ltu_value, cut. pose proof (M d). destruct (zlen d <=? b) eqn:E; lia. Qed.

Lemma mload_len : forall m p n d, mload m p n = Ok d -> zlen d <= Z.max 0 n.
Proof.
  intros m p n d H. unfold mload in H. destruct (_ && _); [|discriminate]. injection H as <-.
  unfold slice, zlen. rewrite firstn_length. lia.
Qed.

Lemma search_loop_ext : forall {St Er S} (transform : S -> mem -> res mem) (e1 e2 : mem -> St -> res (result Z Er * St)) order best bs last m st,
  (forall m st, e1 m st = e2 m st) ->
  search_loop transform e1 order best bs last m st = search_loop transform e2 order best bs last m st.
Proof.
  intros St Er S transform e1 e2 order. induction order as [|s order IH]; intros best bs last m st H; [reflexivity|].
  cbn [search_loop]. destruct (transform s m) as [m1| |]; [|reflexivity|reflexivity]. cbn [bind]. rewrite H.
  destruct (e2 m1 st) as [[[z|e] st1]| |]; [|reflexivity|reflexivity|reflexivity]. cbn [bind]. destruct (z <? bs); apply IH; exact H.
Qed.

Section Cut.
Variables (matches : list byte -> Z) (c : cfg) (v : env) (all : bool) (x out : list byte) (b : Z).
Hypothesis (M : forall d, 0 <= matches d) (B0 : 0 <= b).
Let v' := Env (usize_max v) (fun _ => true).

Lemma estimate_at_cut : forall p n scratch m st, n <= b ->
  estimate_at (ltu matches) p n scratch m st = estimate_at (ltu (cut b matches)) p n scratch m st.
Proof.
  intros p n scratch m st H. unfold estimate_at. destruct (mload m p n) as [d| |] eqn:E; [|reflexivity|reflexivity]. cbn [bind].
  apply mload_len in E. rewrite ltu_est by exact M. rewrite ltu_est by (apply cut_nonneg; exact M).
  rewrite cut_value by lia. reflexivity.
Qed.

Lemma search_cut : forall {S} n transform (est1 est2 : Z -> mem -> unit -> res (result Z ltu_error * unit)) (same : S -> S -> bool) dflt order m st,
  (forall s m st, est1 s m st = est2 s m st) ->
  search v (ltu matches) n transform est1 same dflt order m st = search v' (ltu (cut b matches)) n transform est2 same dflt order m st.
Proof.
  intros S n transform est1 est2 same dflt order m st H. unfold search. cbn.
  rewrite (search_loop_ext transform (est1 0) (est2 0)) by (intros; apply H). reflexivity.
Qed.

Lemma bc1_cut : zlen x <= b ->
  transform_bc1_auto c v (ltu matches) all x out tt = transform_bc1_auto c v' (ltu (cut b matches)) all x out tt.
Proof.
  intros B. unfold transform_bc1_auto, auto_checked. pose proof (zlen_nonneg _ x).
  destruct (negb (zlen x mod 8 =? 0)); [reflexivity|]. destruct (zlen out <? zlen x); [reflexivity|].
  unfold transform_bc1_auto_ptr. erewrite search_cut; [reflexivity|]. intros s m st. apply estimate_at_cut. lia.
Qed.

Lemma bc2_cut : zlen x <= b ->
  transform_bc2_auto c v (ltu matches) all x out tt = transform_bc2_auto c v' (ltu (cut b matches)) all x out tt.
Proof.
  intros B. unfold transform_bc2_auto, auto_checked. pose proof (zlen_nonneg _ x).
  destruct (negb (zlen x mod 16 =? 0)); [reflexivity|]. destruct (zlen out <? zlen x); [reflexivity|].
  unfold transform_bc2_auto_ptr. erewrite search_cut; [reflexivity|]. intros s m st. cbv beta.
  destruct (ptr_add m (Ptr BOut 0) (zlen x / 2)) as [p| |]; [|reflexivity|reflexivity]. cbn [bind]. apply estimate_at_cut. lia.
Qed.

Lemma bc3_cut : zlen x <= b ->
  transform_bc3_auto c v (ltu matches) all x out tt = transform_bc3_auto c v' (ltu (cut b matches)) all x out tt.
Proof.
  intros B. unfold transform_bc3_auto, auto_checked. pose proof (zlen_nonneg _ x).
  destruct (negb (zlen x mod 16 =? 0)); [reflexivity|]. destruct (zlen out <? zlen x); [reflexivity|].
  unfold transform_bc3_auto_ptr. erewrite search_cut; [reflexivity|]. intros s m st. unfold estimate_bc3.
  rewrite estimate_at_cut by lia.
  destruct (estimate_at (ltu (cut b matches)) (Ptr BOut 0) (zlen x / 16 * 2) s m st) as [[[za|e] st1]| |]; [|reflexivity|reflexivity|reflexivity].
  cbn [bind]. destruct (ptr_add m (Ptr BOut 0) (zlen x / 2)) as [p| |]; [|reflexivity|reflexivity]. cbn [bind].
  rewrite estimate_at_cut by lia. reflexivity.
Qed.
End Cut.

Lemma map_len : forall {A} (f : A -> list byte) k bs, (forall a, (List.length (f a) <= k)%nat) ->
  (List.length (List.concat (map f bs)) <= k * List.length bs)%nat.
Proof.
  intros A f k bs H. induction bs as [|a bs IH]; cbn; [lia|]. rewrite app_length. pose proof (H a). lia.
Qed.

Lemma blocks_len : forall k x, (0 < k)%nat -> (k * List.length (blocks k x) <= List.length x)%nat.
Proof.
  intros k x K. unfold blocks. replace (List.length (chunks k (List.length x / k) x)) with (List.length x / k)%nat.
  - apply Nat.mul_div_le. lia.
  - generalize (List.length x / k)%nat. intros n. revert x. induction n as [|n IH]; intros x; cbn; [reflexivity|]. rewrite <- IH. reflexivity.
Qed.

Lemma colours_len : forall v sp off bs, (List.length (lay (colour_fields v sp off) bs) <= 4 * List.length bs)%nat.
Proof.
  intros v sp off bs. unfold lay, colour_fields. destruct sp; cbn [map List.concat]; rewrite ?app_length, ?app_nil_r.
  - assert (C : forall o (a : list byte), (List.length (colour v o a) <= 2)%nat) by (intros; cbn; lia).
    pose proof (map_len (colour v off) 2 bs (C off)). pose proof (map_len (colour v (off + 2)) 2 bs (C _)).
    cbn [List.length]. lia.
  - assert (C : forall a : list byte, (List.length (both (colour v off) (colour v (off + 2)) a) <= 4)%nat) by (intros; cbn; lia).
    pose proof (map_len _ 4 bs C). cbn [List.length]. lia.
Qed.

Lemma raw_len : forall off n (a : list byte), (List.length (raw off n a) <= n)%nat.
Proof. intros. unfold raw. rewrite firstn_length. lia. Qed.

Lemma alphas_len : forall (sp : bool) bs, (List.length (lay (if sp then [raw 0 1; raw 1 1] else [raw 0 2]) bs) <= 2 * List.length bs)%nat.
Proof.
  intros sp bs. unfold lay. destruct sp; cbn [map List.concat]; rewrite ?app_length; cbn [List.length].
  - pose proof (map_len (raw 0 1) 1 bs (raw_len 0 1)). pose proof (map_len (raw 1 1) 1 bs (raw_len 1 1)). lia.
  - pose proof (map_len (raw 0 2) 2 bs (raw_len 0 2)). lia.
Qed.

Lemma shown1_len : forall x s, Forall (fun d : list byte => zlen d <= zlen x) (bc1_shown x s).
Proof.
  intros x s. constructor; [|constructor]. pose proof (colours_len (decorrelation_mode s) (split_colour_endpoints s) 0 (blocks 8 x)).
  pose proof (blocks_len 8 x ltac:(lia)). unfold zlen. lia.
Qed.
Lemma shown2_len : forall x s, Forall (fun d : list byte => zlen d <= zlen x) (bc2_shown x s).
Proof.
  intros x s. constructor; [|constructor]. pose proof (colours_len (decorrelation_mode s) (split_colour_endpoints s) 8 (blocks 16 x)).
  pose proof (blocks_len 16 x ltac:(lia)). unfold zlen. lia.
Qed.
Lemma shown3_len : forall x s, Forall (fun d : list byte => zlen d <= zlen x) (bc3_shown x s).
Proof.
  intros x s. pose proof (blocks_len 16 x ltac:(lia)). constructor; [|constructor; [|constructor]].
  - pose proof (alphas_len (split_alpha_endpoints s) (blocks 16 x)). unfold zlen. lia.
  - pose proof (colours_len (decorrelation_mode3 s) (split_colour_endpoints3 s) 8 (blocks 16 x)). unfold zlen. lia.
Qed.

Lemma cut_total : forall b matches ds n, (forall d, 0 <= matches d) -> Forall (fun d => zlen d <= b) ds ->
  total_size (fun d => ltu_estimate (cut b matches) (Some d) n) ds = ROk (ltu_total matches ds).
Proof.
  intros b matches ds n M H. induction H as [|d ds H1 H2 IH]; [reflexivity|]. cbn [total_size]. rewrite IH. unfold ltu_total. cbn [map fold_right].
  rewrite ltu_est' by (apply cut_nonneg; exact M). rewrite cut_value by exact H1. reflexivity.
Qed.

Lemma est_all_ltu : forall m ds n acc st, (forall d, 0 <= m d) -> exists z, est_all (ltu m) ds n acc st = (ROk z, st).
Proof.
  intros m ds n. induction ds as [|d ds IH]; intros acc st M; [exists acc; reflexivity|].
  cbn [est_all]. rewrite ltu_est by exact M. apply IH. exact M.
Qed.

Lemma srch_ltu : forall {S} m (shown : S -> list (list byte)) n order best bs st, (forall d, 0 <= m d) ->
  exists s, srch (ltu m) shown n order best bs st = (ROk s, st).
Proof.
  intros S m shown n order. induction order as [|a order IH]; intros best bs st M; [exists best; reflexivity|].
  cbn [srch]. destruct (est_all_ltu m (shown a) n 0 st M) as (z & ->). destruct (z <? bs); apply IH; exact M.
Qed.

Lemma AUTO_ltu : forall {S} {out} v m (shown : S -> list (list byte)) L order dflt k run, (forall d, 0 <= m d) ->
  AUTO (out := out) v (ltu m) shown L order dflt k run -> exists s y, run tt = Ok (ROk s, y, tt).
Proof.
  intros S out v m shown L order dflt k run M A. destruct (A tt) as (y & B). cbn [max_compressed_size ltu] in B.
  unfold ltu_max in B. cbn [Z.eqb negb andb] in B.
  destruct (srch_ltu m shown 0 order dflt (usize_max v) tt M) as (s & E). rewrite E in B. exists s, y. apply B.
Qed.

Lemma lC45_bc1_auto : forall (matches : list byte -> Z) (c : cfg) (v : env) (all : bool) (x out : list byte),
  (forall d, 0 <= matches d) -> cpu_ok c -> (c_debug c = true -> x <> []) -> zlen x mod 8 = 0 -> zlen x <= zlen out -> zlen x <= usize_max v ->
  exists s y, transform_bc1_auto c v (ltu matches) all x out tt = Ok (ROk s, y, tt) /\ transform_bc1 c s x out = Ok (ROk tt, y) /\
    candidate all (decorrelation_mode s) /\
    forall s', candidate all (decorrelation_mode s') ->
      ltu_total matches (bc1_shown x s) <= ltu_total matches (bc1_shown x s').
Proof.
  intros matches c v all x out M K D Hm Ho U.
  rewrite (bc1_cut matches c v all x out (zlen x) M (zlen_nonneg _ x) (Z.le_refl _)).
  set (v' := Env (usize_max v) (fun _ => true)).
  destruct (AUTO_ltu _ _ _ _ _ _ _ _ (cut_nonneg (zlen x) matches M) (bc1_AUTO c v' (ltu (cut (zlen x) matches)) all x out K D Hm Ho)) as (s & y & R).
  exists s, y. split; [exact R|].
  destruct (lC16_bc1_auto_optimal ltu_error c v' ltu_max (fun d n => ltu_estimate (cut (zlen x) matches) (Some d) n) all x out s y K D) as (A1 & A2 & n & z & A3 & A4 & A5).
  { intros d n z E. rewrite ltu_est' in E by (apply cut_nonneg; exact M). injection E as <-. pose proof (cut_bound (zlen x) matches d (zlen_nonneg _ x) M). cbn [usize_max v'].
    split; [unfold ltu_value; lia|lia]. }
  { exact R. }
  split; [exact A2|]. split; [exact A1|]. intros s' C. destruct (A5 s' C) as (z' & A6 & A7).
  rewrite cut_total in A4, A6 by (first [exact M|apply shown1_len]). injection A4 as <-. injection A6 as <-. exact A7.
Qed.

Lemma lC45_bc2_auto : forall (matches : list byte -> Z) (c : cfg) (v : env) (all : bool) (x out : list byte),
  (forall d, 0 <= matches d) -> cpu_ok c -> (c_avx512bw c = true -> c_avx512vl c = true) -> zlen x mod 16 = 0 -> zlen x <= zlen out -> zlen x <= usize_max v ->
  exists s y, transform_bc2_auto c v (ltu matches) all x out tt = Ok (ROk s, y, tt) /\ transform_bc2 c s x out = Ok (ROk tt, y) /\
    candidate all (decorrelation_mode s) /\
    forall s', candidate all (decorrelation_mode s') ->
      ltu_total matches (bc2_shown x s) <= ltu_total matches (bc2_shown x s').
Proof.
  intros matches c v all x out M K D Hm Ho U.
  rewrite (bc2_cut matches c v all x out (zlen x) M (zlen_nonneg _ x) (Z.le_refl _)).
  set (v' := Env (usize_max v) (fun _ => true)).
  destruct (AUTO_ltu _ _ _ _ _ _ _ _ (cut_nonneg (zlen x) matches M) (bc2_AUTO c v' (ltu (cut (zlen x) matches)) all x out K D Hm Ho)) as (s & y & R).
  exists s, y. split; [exact R|].
  destruct (lC17_bc2_auto_optimal ltu_error c v' ltu_max (fun d n => ltu_estimate (cut (zlen x) matches) (Some d) n) all x out s y K D) as (A1 & A2 & n & z & A3 & A4 & A5).
  { intros d n z E. rewrite ltu_est' in E by (apply cut_nonneg; exact M). injection E as <-. pose proof (cut_bound (zlen x) matches d (zlen_nonneg _ x) M). cbn [usize_max v'].
    split; [unfold ltu_value; lia|lia]. }
  { exact R. }
  split; [exact A2|]. split; [exact A1|]. intros s' C. destruct (A5 s' C) as (z' & A6 & A7).
  rewrite cut_total in A4, A6 by (first [exact M|apply shown2_len]). injection A4 as <-. injection A6 as <-. exact A7.
Qed.

Lemma lC45_bc3_auto : forall (matches : list byte -> Z) (c : cfg) (v : env) (all : bool) (x out : list byte),
  (forall d, 0 <= matches d) -> cpu_ok c -> (c_debug c = true -> x <> []) -> zlen x mod 16 = 0 -> zlen x <= zlen out -> 2 * zlen x <= usize_max v ->
  exists s y, transform_bc3_auto c v (ltu matches) all x out tt = Ok (ROk s, y, tt) /\ transform_bc3 c s x out = Ok (ROk tt, y) /\
    candidate all (decorrelation_mode3 s) /\
    forall s', candidate all (decorrelation_mode3 s') ->
      ltu_total matches (bc3_shown x s) <= ltu_total matches (bc3_shown x s').
Proof.
  intros matches c v all x out M K D Hm Ho U.
  rewrite (bc3_cut matches c v all x out (zlen x) M (zlen_nonneg _ x) (Z.le_refl _)).
  set (v' := Env (usize_max v) (fun _ => true)).
  assert (SZ : forall d n z, ltu_estimate (cut (zlen x) matches) (Some d) n = ROk z -> 0 <= z /\ 2 * z <= usize_max v').
  { intros d n z E. rewrite ltu_est' in E by (apply cut_nonneg; exact M). injection E as <-. pose proof (cut_bound (zlen x) matches d (zlen_nonneg _ x) M). cbn [usize_max v'].
    split; [unfold ltu_value; lia|lia]. }
  assert (SZ' : forall st d n z st', estimate_compressed_size (ltu (cut (zlen x) matches)) st d n = (ROk z, st') -> 2 * z <= usize_max v').
  { intros st d n z st' E. cbn [estimate_compressed_size ltu] in E. injection E as E _. apply (SZ d n). exact E. }
  destruct (AUTO_ltu _ _ _ _ _ _ _ _ (cut_nonneg (zlen x) matches M) (bc3_AUTO c v' (ltu (cut (zlen x) matches)) all x out K D SZ' Hm Ho)) as (s & y & R).
  exists s, y. split; [exact R|].
  destruct (lC18_bc3_auto_optimal ltu_error c v' ltu_max (fun d n => ltu_estimate (cut (zlen x) matches) (Some d) n) all x out s y K D SZ R) as (A1 & A2 & n & z & A3 & A4 & A5).
  split; [exact A2|]. split; [exact A1|]. intros s' C. destruct (A5 s' C) as (z' & A6 & A7).
  rewrite cut_total in A4, A6 by (first [exact M|apply shown3_len]). injection A4 as <-. injection A6 as <-. exact A7.
Qed.
