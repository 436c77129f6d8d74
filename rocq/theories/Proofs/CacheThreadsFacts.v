(** The compressed data cache under threads. *)
From Verif Require Import Base.Bytes Base.Res Model.Transform Model.Handlers Model.Inspect Model.Zstd Model.Caches Model.CacheThreads
  Spec.Compressed Spec.CacheThreads Proofs.CompressedFacts.
From Coq Require Import String ZifyBool ZifyNat.
Open Scope list_scope.
Open Scope nat_scope.

(** ** Lists *)
Lemma nth_replace : forall {A} (l : list A) i x k, nth_error (replace_nth i x l) k =
  match nth_error l i with None => nth_error l k | Some _ => if k =? i then Some x else nth_error l k end.
Proof.
  intros A. induction l as [|z l IH]; intros [|i] x [|k]; cbn [replace_nth nth_error]; try reflexivity.
  - cbn [Nat.eqb]. destruct (nth_error l i); reflexivity.
  - rewrite IH. cbn [Nat.eqb]. reflexivity.
Qed.
Lemma replace_length : forall {A} (l : list A) i x, List.length (replace_nth i x l) = List.length l.
Proof. intros A. induction l as [|z l IH]; intros [|i] x; cbn [replace_nth List.length]; try reflexivity. rewrite IH. reflexivity. Qed.
Lemma in_replace : forall {A} (l : list A) i x y, In y (replace_nth i x l) -> y = x \/ In y l.
Proof.
  intros A. induction l as [|z l IH]; intros [|i] x y H; cbn [replace_nth] in H; try (right; exact H).
  - destruct H as [<-|H]; [left; reflexivity|right; right; exact H].
  - destruct H as [<-|H]; [right; left; reflexivity|]. destruct (IH i x y H) as [->|I]; [left; reflexivity|right; right; exact I].
Qed.
Lemma set_file_same : forall (dir : data_cache) p d, set_file dir p d p = Some d.
Proof. intros. unfold set_file. rewrite String.eqb_refl. reflexivity. Qed.
Lemma set_file_other : forall (dir : data_cache) p d q, q <> p -> set_file dir p d q = dir q.
Proof. intros dir p d q H. unfold set_file. destruct (String.eqb q p) eqn:E; [apply String.eqb_eq in E; contradiction|reflexivity]. Qed.

(** Writing at a position. *)
Lemma write_at_length : forall f k b, List.length (write_at f k b) = Nat.max (List.length f) (k + List.length b).
Proof.
  intros f k b. unfold write_at. rewrite !app_length, firstn_length, app_length, repeat_length, skipn_length. lia.
Qed.
Lemma write_at_nth : forall f k b i, nth_error (write_at f k b) i =
  if i <? k then nth_error (f ++ repeat Byte.x00 (k - List.length f)) i
  else if i <? k + List.length b then nth_error b (i - k) else nth_error f i.
Proof.
  intros f k b i. unfold write_at. set (g := f ++ _).
  assert (LG : List.length (firstn k g) = k) by (unfold g; rewrite firstn_length, app_length, repeat_length; lia).
  destruct (Nat.ltb_spec i k).
  - rewrite nth_error_app1 by lia. rewrite <- (firstn_skipn k g) at 2. rewrite nth_error_app1 by lia. reflexivity.
  - rewrite nth_error_app2 by lia. rewrite LG. destruct (Nat.ltb_spec i (k + List.length b)).
    + rewrite nth_error_app1 by lia. reflexivity.
    + rewrite nth_error_app2 by lia. set (n := k + List.length b) in *.
      destruct (Nat.le_gt_cases (List.length f) n) as [D|D].
      * rewrite skipn_all2 by exact D. replace (nth_error f i) with (@None byte) by (symmetry; apply nth_error_None; lia). apply nth_error_None. cbn. lia.
      * rewrite <- (firstn_skipn n f) at 2. rewrite nth_error_app2 by (rewrite firstn_length; lia). rewrite firstn_length. f_equal. lia.
Qed.
Lemma part_nth : forall (bytes : list byte) k n i, k <= i < k + List.length (firstn n (skipn k bytes)) ->
  nth_error (firstn n (skipn k bytes)) (i - k) = nth_error bytes i.
Proof.
  intros bytes k n i H. rewrite firstn_length, skipn_length in H.
  assert (E : nth_error (skipn k bytes) (i - k) = nth_error bytes i).
  { rewrite <- (firstn_skipn k bytes) at 2. rewrite nth_error_app2 by (rewrite firstn_length; lia). rewrite firstn_length. f_equal. lia. }
  rewrite <- E. rewrite <- (firstn_skipn n (skipn k bytes)) at 2. rewrite nth_error_app1; [reflexivity|]. rewrite firstn_length, skipn_length. lia.
Qed.
Lemma same_nth : forall (f g : list byte), List.length f <= List.length g -> (forall i, i < List.length g -> nth_error f i = nth_error g i) -> f = g.
Proof.
  induction f as [|x f IH]; intros [|y g] L H; cbn [List.length] in *; try reflexivity.
  - specialize (H 0 ltac:(lia)). discriminate.
  - lia.
  - pose proof (H 0 ltac:(lia)) as E. cbn in E. injection E as ->. f_equal. apply IH; [lia|]. intros i I. exact (H (S i) ltac:(lia)).
Qed.

(** ** What a compressed call gives *)
Lemma compress_unique : forall {L} (y : zstd_codec L) frame, behaves y frame ->
  exists P : Z -> parameters, forall level d st buffer size st', P level ZFormat = 1%Z /\
    (compress_with_algorithm y d ZStandard level st = Ok (ROk (buffer, size), st') -> firstn (Z.to_nat size) buffer = frame (P level) d).
Proof.
  intros L y frame (cc & dd & first & B1 & B2 & B3 & _).
  exists (fun level q => if parameter_eqb q ZDictIDFlag then 0 else if parameter_eqb q ZChecksumFlag then 0 else
    if parameter_eqb q ZContentSizeFlag then 0 else if parameter_eqb q ZFormat then 1 else if parameter_eqb q ZCompressionLevel then level else first q)%Z.
  intros level d st buffer size st'. split; [reflexivity|]. intros H.
  unfold compress_with_algorithm in H. destruct (raw_compress y level d _ st) as [[[z bytes]|[]] st1] eqn:R; [|discriminate].
  injection H as <- <- <-. unfold raw_compress in R. unfold raw_compress in R.
  destruct (y_create_cctx y st) as [[c|] st2] eqn:E; [|discriminate]. pose proof (B1 _ _ _ E) as C.
  unfold raw_set_compress_params in R. unfold ZSTD_f_zstd1_magicless in R.
  pose proof (B2 _ _ ZCompressionLevel level _ C) as C1. pose proof (B2 _ _ ZFormat 1%Z _ C1) as C2. pose proof (B2 _ _ ZContentSizeFlag 0%Z _ C2) as C3.
  pose proof (B2 _ _ ZChecksumFlag 0%Z _ C3) as C4. pose proof (B2 _ _ ZDictIDFlag 0%Z _ C4) as C5. cbv zeta in R.
  pose proof (B3 _ _ _ (y_compress_bound y (zlen d)) d C5) as D. destruct (y_compress2 _ _ _ _ _) as [[z' bytes'] st3]. cbn [fst] in *.
  destruct (y_is_error y z') eqn:Z'; cbn [negb] in R; [discriminate|]. destruct D as [D|D]; [congruence|].
  injection R as R1 R2 R3. injection D as D1 D2. rewrite <- R1, <- R2, D1, D2. unfold zlen. rewrite Nat2Z.id. apply firstn_all.
Qed.

Section Tasks.
Context {L : Type}.
Variable y : zstd_codec L.
Variable hash : list byte -> Z.

(** ** The turns, one by one *)
Inductive turned (dir : data_cache) (c : call) (rest : list call) (ans : list (list byte)) : action L -> stage -> data_cache -> task -> Prop :=
| looked_missing : dir (call_file hash c) = None -> turned dir c rest ans Look Begin dir (Task Missing (c :: rest) ans)
| looked_there : forall f, dir (call_file hash c) = Some f -> turned dir c rest ans Look Begin dir (Task (Reading []) (c :: rest) ans)
| gave_up : forall a s, (forall b k, s <> Writing b k) -> turned dir c rest ans a s dir (Task Begin [] ans)
| read_end : forall n f got, dir (call_file hash c) = Some f -> List.length f <= List.length got ->
    turned dir c rest ans (Read n) (Reading got) dir (Task Begin rest (ans ++ [got]))
| read_more : forall n f got m more, dir (call_file hash c) = Some f -> m :: more = firstn (S n) (skipn (List.length got) f) ->
    turned dir c rest ans (Read n) (Reading got) dir (Task (Reading (got ++ m :: more)) (c :: rest) ans)
| compressed : forall st buffer size st', compress_with_algorithm y (call_data c) ZStandard (call_level c) st = Ok (ROk (buffer, size), st') ->
    turned dir c rest ans (Compress st) Missing dir (Task (Compressed (firstn (Z.to_nat size) buffer)) (c :: rest) ans)
| created : forall b, turned dir c rest ans Create (Compressed b) (set_file dir (call_file hash c) []) (Task (Writing b 0) (c :: rest) ans)
| create_failed : forall b, turned dir c rest ans CreateFails (Compressed b) dir (Task Begin rest (ans ++ [b]))
| wrote_end : forall n f b k, dir (call_file hash c) = Some f -> List.length b <= k + List.length (firstn (S n) (skipn k b)) ->
    turned dir c rest ans (Write n) (Writing b k) (set_file dir (call_file hash c) (write_at f k (firstn (S n) (skipn k b)))) (Task Begin rest (ans ++ [b]))
| wrote_more : forall n f b k, dir (call_file hash c) = Some f -> k + List.length (firstn (S n) (skipn k b)) < List.length b ->
    turned dir c rest ans (Write n) (Writing b k) (set_file dir (call_file hash c) (write_at f k (firstn (S n) (skipn k b))))
      (Task (Writing b (k + List.length (firstn (S n) (skipn k b)))) (c :: rest) ans)
| write_failed : forall b k, turned dir c rest ans WriteFails (Writing b k) dir (Task Begin rest (ans ++ [b])).

Lemma turn_cases : forall a dir t dir' t', turn y hash a dir t = Some (dir', t') ->
  exists c rest, t_calls t = c :: rest /\ turned dir c rest (t_answers t) a (t_stage t) dir' t'.
Proof.
  intros a dir [s calls ans] dir' t' H. unfold turn, returns, gives_up in H. cbn [t_stage t_calls t_answers] in *.
  destruct calls as [|c rest]; [discriminate|]. exists c, rest. split; [reflexivity|]. cbn [tl] in H.
  destruct s as [|got| |b|b k]; destruct a as [| |n| |st| | |n|]; try discriminate.
  - destruct (dir (call_file hash c)) as [f|] eqn:F; injection H as <- <-; [exact (looked_there _ _ _ _ f F)|exact (looked_missing _ _ _ _ F)].
  - destruct (dir (call_file hash c)) as [f|] eqn:F; [|discriminate]. injection H as <- <-. apply gave_up. discriminate.
  - destruct (dir (call_file hash c)) as [f|] eqn:F; [|discriminate].
    destruct (firstn (S n) (skipn (List.length got) f)) as [|m more] eqn:E; injection H as <- <-.
    + apply (read_end _ _ _ _ n f); [exact F|]. pose proof (f_equal (@List.length byte) E) as LE. rewrite firstn_length, skipn_length in LE. change (List.length (@nil byte)) with 0 in LE. lia.
    + apply (read_more _ _ _ _ n f got m more F). symmetry. exact E.
  - injection H as <- <-. apply gave_up. discriminate.
  - destruct (compress_with_algorithm y (call_data c) ZStandard (call_level c) st) as [[[[buffer size]|e] st']|w|w] eqn:E; injection H as <- <-;
      try (apply gave_up; discriminate). exact (compressed _ _ _ _ st buffer size st' E).
  - injection H as <- <-. apply created.
  - injection H as <- <-. apply create_failed.
  - destruct (dir (call_file hash c)) as [f|] eqn:F; [|discriminate].
    destruct (Nat.leb_spec (List.length b) (k + List.length (firstn (S n) (skipn k b)))) as [E|E]; injection H as <- <-.
    + exact (wrote_end _ _ _ _ n f b k F E).
    + exact (wrote_more _ _ _ _ n f b k F E).
  - injection H as <- <-. apply write_failed.
Qed.

(** ** An invariant of all schedules: lengths *)
Variable ds : list (list byte).
Notation complete := (complete_file y hash ds).
Hypothesis U : forall name F F', complete name F -> complete name F' -> F = F'.

Definition task_ok (dir : data_cache) (t : task) : Prop :=
  (forall c, In c (t_calls t) -> In (call_data c) ds) /\
  match t_calls t with
  | [] => True
  | c :: _ =>
      match t_stage t with
      | Begin | Missing => True
      | Reading got => exists f, dir (call_file hash c) = Some f
      | Compressed b => complete (call_file hash c) b
      | Writing b k => complete (call_file hash c) b /\ k <= List.length b /\ exists f, dir (call_file hash c) = Some f
      end
  end.
Definition files_ok (dir : data_cache) : Prop :=
  forall name f, dir name = Some f -> exists F, complete name F /\ List.length f <= List.length F.
(** Files do not disappear. *)
Definition kept (dir dir' : data_cache) : Prop := forall name f, dir name = Some f -> exists f', dir' name = Some f'.
Lemma set_kept : forall dir p d, kept dir (set_file dir p d).
Proof. intros dir p d name f H. unfold set_file. destruct (String.eqb name p); eauto. Qed.
Lemma turned_kept : forall dir c rest ans a s dir' t', turned dir c rest ans a s dir' t' -> kept dir dir'.
Proof. intros dir c rest ans a s dir' t' H. destruct H; try (intros name f' E; eauto); apply (set_kept dir _ _ name f' E). Qed.
Lemma task_ok_kept : forall dir dir' t, kept dir dir' -> task_ok dir t -> task_ok dir' t.
Proof.
  intros dir dir' t K (A & B). split; [exact A|]. destruct (t_calls t) as [|c rest]; [exact B|].
  destruct (t_stage t); try exact B; [destruct B as (f & B); exact (K _ _ B)|]. destruct B as (B1 & B2 & f & B3). split; [exact B1|]. split; [exact B2|exact (K _ _ B3)].
Qed.
Lemma part_length : forall n k (b : list byte), k <= List.length b -> k + List.length (firstn n (skipn k b)) <= List.length b.
Proof. intros n k b H. rewrite firstn_length, skipn_length. lia. Qed.
Lemma turned_ok : forall dir c rest ans a s dir' t', turned dir c rest ans a s dir' t' -> files_ok dir -> task_ok dir (Task s (c :: rest) ans) ->
  files_ok dir' /\ task_ok dir' t'.
Proof.
  intros dir c rest ans a s dir' t' H FO (A & B). cbn [t_calls t_stage] in *.
  assert (AR : forall c0, In c0 rest -> In (call_data c0) ds) by (intros c0 I; apply A; right; exact I).
  assert (AE : forall c0 : call, In c0 [] -> In (call_data c0) ds) by (intros c0 []).
  assert (BR : forall dir' ans', task_ok dir' (Task Begin rest ans')) by (intros; split; [exact AR|cbn; destruct rest; exact I]).
  destruct H as [F|f F|a s NW|n f got F E|n f got m more F E|st buffer size st' E|b|b|n f b k F E|n f b k F E|b k]; cbn [t_calls t_stage] in *.
  - split; [exact FO|]. split; [exact A|exact I].
  - split; [exact FO|]. split; [exact A|]. cbn. eauto.
  - split; [exact FO|]. split; [exact AE|exact I].
  - split; [exact FO|apply BR].
  - split; [exact FO|]. split; [exact A|]. cbn. eauto.
  - split; [exact FO|]. split; [exact A|]. cbn [t_calls t_stage]. exists (call_data c), (call_level c), st, buffer, size, st'.
    split; [apply A; left; reflexivity|]. split; [reflexivity|]. split; [exact E|reflexivity].
  - split.
    + intros name f H. unfold set_file in H. destruct (String.eqb name (call_file hash c)) eqn:E; [|exact (FO _ _ H)].
      apply String.eqb_eq in E. subst name. injection H as <-. exists b. split; [exact B|cbn; lia].
    + split; [exact A|]. cbn [t_calls t_stage]. split; [exact B|]. split; [lia|]. exists []. apply set_file_same.
  - split; [exact FO|apply BR].
  - destruct B as (B1 & B2 & _). split; [|apply BR]. intros name f' H. unfold set_file in H.
    destruct (String.eqb name (call_file hash c)) eqn:En; [|exact (FO _ _ H)]. apply String.eqb_eq in En. subst name. injection H as <-.
    exists b. split; [exact B1|]. rewrite write_at_length. destruct (FO _ _ F) as (F' & C & Lf). rewrite (U _ _ _ C B1) in Lf.
    pose proof (part_length (S n) k b B2). cbn [firstn] in *. lia.
  - destruct B as (B1 & B2 & _). split.
    + intros name f' H. unfold set_file in H.
      destruct (String.eqb name (call_file hash c)) eqn:En; [|exact (FO _ _ H)]. apply String.eqb_eq in En. subst name. injection H as <-.
      exists b. split; [exact B1|]. rewrite write_at_length. destruct (FO _ _ F) as (F' & C & Lf). rewrite (U _ _ _ C B1) in Lf. cbn [firstn] in *. lia.
    + split; [exact A|]. cbn [t_calls t_stage]. split; [exact B1|]. split; [lia|]. eexists. apply set_file_same.
  - split; [exact FO|apply BR].
Qed.

(** ** What is not yet right in a file is still to be written *)
Definition writing_from (t : task) (name : string) (i : nat) : Prop :=
  exists b k c rest, t_stage t = Writing b k /\ t_calls t = c :: rest /\ name = call_file hash c /\ k <= i.
Definition covered (dir : data_cache) (ts : list task) : Prop :=
  forall name f F, dir name = Some f -> complete name F -> forall i, i < List.length F ->
  nth_error f i = nth_error F i \/ exists j t, nth_error ts j = Some t /\ writing_from t name i.

Lemma covered_keeps : forall dir ts j t t', covered dir ts -> nth_error ts j = Some t -> (forall name i, ~ writing_from t name i) ->
  covered dir (replace_nth j t' ts).
Proof.
  intros dir ts j t t' C N W name f F H1 H2 i I. destruct (C name f F H1 H2 i I) as [E|(j' & t'' & N' & W')]; [left; exact E|]. right.
  exists j', t''. split; [|exact W']. rewrite nth_replace, N. destruct (Nat.eqb_spec j' j) as [->|D]; [|exact N'].
  exfalso. rewrite N in N'. injection N' as <-. exact (W _ _ W').
Qed.
Lemma not_writing : forall t, (forall b k, t_stage t <> Writing b k) -> forall name i, ~ writing_from t name i.
Proof. intros t H name i (b & k & c & rest & E & _). exact (H b k E). Qed.

(** One part is written to a file. *)
Lemma covered_write : forall dir ts j t t' c rest n f b k,
  covered dir ts -> nth_error ts j = Some t -> t_stage t = Writing b k -> t_calls t = c :: rest -> complete (call_file hash c) b -> k <= List.length b ->
  dir (call_file hash c) = Some f ->
  (forall i, k + List.length (firstn (S n) (skipn k b)) <= i < List.length b -> writing_from t' (call_file hash c) i) ->
  covered (set_file dir (call_file hash c) (write_at f k (firstn (S n) (skipn k b)))) (replace_nth j t' ts).
Proof.
  intros dir ts j t t' c rest n f b k C N S T B LE F W name f' F' H1 H2 i I. remember (firstn (Datatypes.S n) (skipn k b)) as part eqn:Ep.
  assert (OTHER : forall j' t'', nth_error ts j' = Some t'' -> j' <> j -> nth_error (replace_nth j t' ts) j' = Some t'').
  { intros j' t'' N' D. rewrite nth_replace, N. destruct (Nat.eqb_spec j' j); [contradiction|exact N']. }
  destruct (string_dec name (call_file hash c)) as [->|NE].
  - rewrite set_file_same in H1. injection H1 as <-. pose proof (U _ _ _ H2 B) as ->. rewrite write_at_nth.
    destruct (Nat.ltb_spec i k) as [LT|GE].
    + destruct (C _ _ _ F B i I) as [E|(j' & t'' & N' & W')].
      * left. rewrite nth_error_app1; [exact E|]. apply nth_error_Some. rewrite E. apply nth_error_Some. exact I.
      * right. exists j', t''. split; [|exact W']. apply OTHER; [exact N'|]. intros ->. rewrite N in N'. injection N' as <-.
        destruct W' as (b' & k' & c' & rest' & S' & _ & _ & K). rewrite S in S'. injection S' as <- <-. lia.
    + destruct (Nat.ltb_spec i (k + List.length part)) as [LT|GE2].
      * left. rewrite Ep. apply part_nth. rewrite <- Ep. lia.
      * right. exists j, t'. split; [rewrite nth_replace, N, Nat.eqb_refl; reflexivity|]. apply W. lia.
  - rewrite set_file_other in H1 by exact NE. destruct (C _ _ _ H1 H2 i I) as [E|(j' & t'' & N' & W')]; [left; exact E|]. right.
    exists j', t''. split; [|exact W']. apply OTHER; [exact N'|]. intros ->. rewrite N in N'. injection N' as <-.
    destruct W' as (b' & k' & c' & rest' & _ & T' & E & _). rewrite T in T'. injection T' as <- <-. exact (NE E).
Qed.
Lemma turned_covered : forall dir ts j t a c rest dir' t', nth_error ts j = Some t -> t_calls t = c :: rest ->
  turned dir c rest (t_answers t) a (t_stage t) dir' t' -> a <> WriteFails -> files_ok dir -> task_ok dir t -> covered dir ts ->
  covered dir' (replace_nth j t' ts).
Proof.
  intros dir ts j t a c rest dir' t' N T H NF FO TO C. pose proof (covered_keeps dir ts j t t' C N) as KEEP. destruct TO as (_ & TO). rewrite T in TO.
  remember (t_stage t) as s eqn:S. symmetry in S.
  destruct H as [F|f F|a s NW|n f got F E|n f got m more F E|st buffer size st' E|b|b|n f b k F E|n f b k F E|b k]; try (apply KEEP; apply not_writing; rewrite S; intros; discriminate).
  - apply KEEP. apply not_writing. intros b k E. apply (NW b k). congruence.
  - intros name f F H1 H2 i I. destruct (string_dec name (call_file hash c)) as [->|NE].
    + right. exists j, (Task (Writing b 0) (c :: rest) (t_answers t)). split; [rewrite nth_replace, N, Nat.eqb_refl; reflexivity|].
      exists b, 0, c, rest. split; [reflexivity|]. split; [reflexivity|]. split; [reflexivity|lia].
    + rewrite set_file_other in H1 by exact NE.
      refine (covered_keeps dir ts j t _ C N _ name f F H1 H2 i I). apply not_writing. rewrite S. discriminate.
  - destruct TO as (B & LE & _). apply (covered_write dir ts j t _ c rest n f b k C N S T B LE F). intros i I. lia.
  - destruct TO as (B & LE & _). apply (covered_write dir ts j t _ c rest n f b k C N S T B LE F). intros i I.
    exists b, (k + List.length (firstn (Datatypes.S n) (skipn k b))), c, rest. cbn [t_stage t_calls]. repeat (split; [reflexivity|]). lia.
  - contradiction.
Qed.

(** ** Schedules *)
Definition tasks_ok (dir : data_cache) (ts : list task) : Prop := forall t, In t ts -> task_ok dir t.
Lemma turn_ok : forall a dir ts j t dir' t', files_ok dir -> tasks_ok dir ts -> nth_error ts j = Some t -> turn y hash a dir t = Some (dir', t') ->
  files_ok dir' /\ tasks_ok dir' (replace_nth j t' ts).
Proof.
  intros a dir ts j t dir' t' FO TO N H. destruct (turn_cases _ _ _ _ _ H) as (c & rest & E & T).
  pose proof (TO t (nth_error_In _ _ N)) as T1. assert (Task (t_stage t) (c :: rest) (t_answers t) = t) as Et by (destruct t; cbn in *; congruence).
  destruct (turned_ok _ _ _ _ _ _ _ _ T FO) as (F1 & T2); [rewrite Et; exact T1|]. split; [exact F1|].
  intros t0 I. apply in_replace in I. destruct I as [->|I]; [exact T2|]. apply (task_ok_kept dir); [exact (turned_kept _ _ _ _ _ _ _ _ T)|exact (TO t0 I)].
Qed.
Lemma run_ok : forall schedule dir ts, files_ok dir -> tasks_ok dir ts ->
  files_ok (fst (run y hash schedule dir ts)) /\ tasks_ok (fst (run y hash schedule dir ts)) (snd (run y hash schedule dir ts)).
Proof.
  induction schedule as [|[i a] schedule IH]; intros dir ts FO TO; cbn [run]; [split; assumption|].
  destruct (nth_error ts i) as [t|] eqn:N; [|apply IH; assumption]. destruct (turn y hash a dir t) as [[dir' t']|] eqn:H; [|apply IH; assumption].
  destruct (turn_ok _ _ _ _ _ _ _ FO TO N H) as (F1 & T1). apply IH; assumption.
Qed.
Lemma run_covered : forall schedule dir ts, files_ok dir -> tasks_ok dir ts -> covered dir ts -> (forall i, ~ In (i, WriteFails) schedule) ->
  covered (fst (run y hash schedule dir ts)) (snd (run y hash schedule dir ts)).
Proof.
  induction schedule as [|[i a] schedule IH]; intros dir ts FO TO C NF; cbn [run]; [exact C|].
  assert (NF' : forall i, ~ In (i, WriteFails) schedule) by (intros i' I; exact (NF i' (or_intror I))).
  destruct (nth_error ts i) as [t|] eqn:N; [|apply IH; assumption]. destruct (turn y hash a dir t) as [[dir' t']|] eqn:H; [|apply IH; assumption].
  destruct (turn_ok _ _ _ _ _ _ _ FO TO N H) as (F1 & T1). apply IH; try assumption.
  destruct (turn_cases _ _ _ _ _ H) as (c & rest & E & T).
  apply (turned_covered dir ts i t a c rest dir' t' N E T); [intros ->; exact (NF i (or_introl eq_refl))|exact FO|exact (TO t (nth_error_In _ _ N))|exact C].
Qed.
Lemma complete_after : forall schedule dir calls dir' ts',
  complete_files y hash ds dir -> (forall cs c, In cs calls -> In c cs -> In (call_data c) ds) -> (forall i, ~ In (i, WriteFails) schedule) ->
  run y hash schedule dir (dry_run_tasks calls) = (dir', ts') ->
  forall name bytes, dir' name = Some bytes -> (forall t, In t ts' -> ~ writes hash t name) -> complete name bytes.
Proof.
  intros schedule dir calls dir' ts' W A NF R name bytes E NW.
  assert (FO : files_ok dir) by (intros n f H; exists f; split; [exact (W n f H)|lia]).
  assert (TO : tasks_ok dir (dry_run_tasks calls)).
  { intros t I. apply in_map_iff in I. destruct I as (cs & <- & I). split; [intros c Ic; exact (A cs c I Ic)|]. cbn. destruct cs; exact Logic.I. }
  assert (C0 : covered dir (dry_run_tasks calls)).
  { intros n f F H1 H2 i I. left. rewrite (U _ _ _ H2 (W n f H1)). reflexivity. }
  pose proof (run_covered schedule _ _ FO TO C0 NF) as C. destruct (run_ok schedule _ _ FO TO) as (F1 & _). rewrite R in C, F1. cbn [fst snd] in C, F1.
  destruct (F1 _ _ E) as (F & H & LE). assert (bytes = F) as ->; [|exact H].
  apply same_nth; [exact LE|]. intros i I. destruct (C _ _ _ E H i I) as [Q|(j & t & N & (b & k & c & rest & Q1 & Q2 & Q3 & _))]; [exact Q|].
  exfalso. apply (NW t (nth_error_In _ _ N)). exists b, k, c, rest. auto.
Qed.

(** ** No endless work *)
Variable bound : call -> nat.
Hypothesis HB : forall c F, In (call_data c) ds -> complete (call_file hash c) F -> List.length F <= bound c.
Definition stage_work (c : call) (s : stage) : nat :=
  match s with
  | Begin => 2 * bound c + 6
  | Reading got => bound c - List.length got + 1
  | Missing => bound c + 4
  | Compressed _ => bound c + 3
  | Writing b k => List.length b - k + 1
  end.
Definition calls_work (cs : list call) : nat := fold_right (fun c n => 2 * bound c + 6 + n) 0 cs.
Definition work (t : task) : nat := match t_calls t with [] => 0 | c :: rest => stage_work c (t_stage t) + calls_work rest end.
Definition all_work (ts : list task) : nat := fold_right (fun t n => work t + n) 0 ts.
Lemma work_begin : forall cs ans, work (Task Begin cs ans) = calls_work cs.
Proof. intros [|c cs] ans; cbn [work t_calls t_stage calls_work fold_right stage_work]; [reflexivity|]. unfold calls_work. lia. Qed.
Lemma turned_work : forall dir c rest ans a s dir' t', turned dir c rest ans a s dir' t' -> files_ok dir -> task_ok dir (Task s (c :: rest) ans) ->
  work t' < work (Task s (c :: rest) ans).
Proof.
  intros dir c rest ans a s dir' t' H FO (A & B). cbn [t_calls t_stage] in *. specialize (A c (or_introl eq_refl)).
  destruct H as [F|f F|a s NW|n f got F E|n f got m more F E|st buffer size st' E|b|b|n f b k F E|n f b k F E|b k];
    rewrite ?work_begin; unfold work; cbn [t_calls t_stage stage_work List.length]; unfold calls_work; cbn [fold_right]; fold (calls_work rest); try lia.
  - destruct s; cbn [stage_work]; lia.
  - destruct (FO _ _ F) as (G & C & LE). pose proof (HB _ _ A C). rewrite app_length.
    pose proof (f_equal (@List.length byte) E) as LL. rewrite firstn_length, skipn_length in LL. cbn [List.length] in *. lia.
  - pose proof (HB _ _ A B). lia.
  - remember (firstn (S n) (skipn k b)) as part eqn:Ep. assert (List.length part = Nat.min (S n) (List.length b - k)) by (rewrite Ep, firstn_length, skipn_length; reflexivity). lia.
Qed.
Lemma all_work_replace : forall ts j t t', nth_error ts j = Some t -> work t' < work t -> all_work (replace_nth j t' ts) < all_work ts.
Proof.
  induction ts as [|z ts IH]; intros [|j] t t' N H; cbn [nth_error] in N; try discriminate.
  - injection N as ->. cbn [replace_nth all_work fold_right]. lia.
  - cbn [replace_nth all_work fold_right]. specialize (IH j t t' N H). unfold all_work in IH. lia.
Qed.
Lemma turns_bounded : forall schedule dir ts, files_ok dir -> tasks_ok dir ts -> turns_taken y hash schedule dir ts <= all_work ts.
Proof.
  induction schedule as [|[i a] schedule IH]; intros dir ts FO TO; cbn [turns_taken]; [lia|].
  destruct (nth_error ts i) as [t|] eqn:N; [|apply IH; assumption]. destruct (turn y hash a dir t) as [[dir' t']|] eqn:H; [|apply IH; assumption].
  destruct (turn_ok _ _ _ _ _ _ _ FO TO N H) as (F1 & T1). specialize (IH dir' _ F1 T1).
  destruct (turn_cases _ _ _ _ _ H) as (c & rest & E & T). pose proof (TO t (nth_error_In _ _ N)) as TT.
  assert (Task (t_stage t) (c :: rest) (t_answers t) = t) as Et by (destruct t; cbn in *; congruence). rewrite <- Et in TT.
  pose proof (turned_work _ _ _ _ _ _ _ _ T FO TT) as W. rewrite Et in W. pose proof (all_work_replace ts i t t' N W). lia.
Qed.
End Tasks.

(** ** Facts that need nothing of the library *)
Section Any.
Context {L : Type}.
Variable y : zstd_codec L.
Variable hash : list byte -> Z.
Definition open_ok (dir : data_cache) (t : task) : Prop :=
  match t_calls t, t_stage t with
  | c :: _, Reading _ | c :: _, Writing _ _ => exists f, dir (call_file hash c) = Some f
  | _, _ => True
  end.
Lemma open_kept : forall dir dir' t, kept dir dir' -> open_ok dir t -> open_ok dir' t.
Proof. intros dir dir' t K H. unfold open_ok in *. destruct (t_calls t); [exact I|]. destruct (t_stage t); try exact I; destruct H as (f & H); exact (K _ _ H). Qed.
Lemma turned_open : forall dir c rest ans a s dir' t', turned y hash dir c rest ans a s dir' t' -> open_ok dir' t'.
Proof.
  intros dir c rest ans a s dir' t' H. unfold open_ok. destruct H; cbn [t_calls t_stage]; try exact I; try (destruct rest; exact I); eauto; eexists; apply set_file_same.
Qed.

(** For one task, with the calls [cs] at first: the calls that returned have files. *)
Definition progress (dir : data_cache) (cs : list call) (t : task) : Prop :=
  (t_calls t = skipn (List.length (t_answers t)) cs \/ (t_calls t = [] /\ List.length (t_answers t) < List.length cs)) /\
  forall c, In c (firstn (List.length (t_answers t)) cs) -> exists f, dir (call_file hash c) = Some f.
Lemma progress_kept : forall dir dir' cs t, kept dir dir' -> progress dir cs t -> progress dir' cs t.
Proof. intros dir dir' cs t K (A & B). split; [exact A|]. intros c I. destruct (B c I) as (f & F). exact (K _ _ F). Qed.
Lemma progress_return : forall dir dir' cs c rest (ans : list (list byte)) a, kept dir dir' -> c :: rest = skipn (List.length ans) cs ->
  (forall c, In c (firstn (List.length ans) cs) -> exists f, dir (call_file hash c) = Some f) -> (exists f, dir' (call_file hash c) = Some f) ->
  progress dir' cs (Task Begin rest (ans ++ [a])).
Proof.
  intros dir dir' cs c rest ans a K E A F. assert (LA : List.length (ans ++ [a]) = S (List.length ans)) by (rewrite app_length; cbn; lia).
  unfold progress. cbn [t_calls t_answers]. rewrite LA.
  assert (CS : cs = firstn (List.length ans) cs ++ c :: rest) by (rewrite E; symmetry; apply firstn_skipn).
  assert (LF : List.length (firstn (List.length ans) cs) = List.length ans).
  { pose proof (f_equal (@List.length call) E) as LE. rewrite skipn_length in LE. cbn [List.length] in LE. rewrite firstn_length. lia. }
  remember (firstn (List.length ans) cs) as p eqn:Ep. rewrite <- LF, CS. split.
  - left. replace (S (List.length p)) with (List.length p + 1) by lia. rewrite skipn_app, skipn_all2 by lia. replace (List.length p + 1 - List.length p) with 1 by lia. reflexivity.
  - intros c' I. replace (S (List.length p)) with (List.length p + 1) in I by lia. rewrite firstn_app_2 in I. cbn [firstn] in I. apply in_app_or in I.
    destruct I as [I|[<-|[]]]; [|exact F]. destruct (A c' I) as (f & H). exact (K _ _ H).
Qed.
Lemma turned_progress : forall dir c rest ans a s dir' t' cs, turned y hash dir c rest ans a s dir' t' -> a <> CreateFails ->
  open_ok dir (Task s (c :: rest) ans) -> progress dir cs (Task s (c :: rest) ans) -> progress dir' cs t'.
Proof.
  intros dir c rest ans a s dir' t' cs H NF O (A & B). pose proof (turned_kept y hash _ _ _ _ _ _ _ _ H) as K. cbn [t_calls t_answers] in *.
  destruct A as [A|[A _]]; [|discriminate].
  assert (SAME : forall s', progress dir' cs (Task s' (c :: rest) ans)).
  { intros s'. apply (progress_kept dir); [exact K|]. split; [left; exact A|exact B]. }
  pose proof (progress_return dir dir' cs c rest ans) as RET.
  destruct H as [F|f F|a s NW|n f got F E|n f got m more F E|st buffer size st' E|b|b|n f b k F E|n f b k F E|b k]; try apply SAME.
  - apply (progress_kept dir); [exact K|]. split; [right|exact B]. cbn [t_calls t_answers]. split; [reflexivity|].
    pose proof (f_equal (@List.length call) A) as LE. rewrite skipn_length in LE. cbn [List.length] in LE. lia.
  - apply RET; eauto.
  - contradiction.
  - apply RET; eauto.
  - apply RET; eauto.
Qed.

Definition open_tasks (dir : data_cache) (ts : list task) : Prop := forall t, In t ts -> open_ok dir t.
Lemma turn_open : forall a dir ts j t dir' t', open_tasks dir ts -> nth_error ts j = Some t -> turn y hash a dir t = Some (dir', t') ->
  open_tasks dir' (replace_nth j t' ts).
Proof.
  intros a dir ts j t dir' t' O N H t0 I. destruct (turn_cases y hash _ _ _ _ _ H) as (c & rest & E & T).
  apply in_replace in I. destruct I as [->|I]; [exact (turned_open _ _ _ _ _ _ _ _ T)|].
  apply (open_kept dir); [exact (turned_kept y hash _ _ _ _ _ _ _ _ T)|exact (O t0 I)].
Qed.
Lemma run_open : forall schedule dir ts, open_tasks dir ts -> open_tasks (fst (run y hash schedule dir ts)) (snd (run y hash schedule dir ts)).
Proof.
  induction schedule as [|[i a] schedule IH]; intros dir ts O; cbn [run]; [exact O|].
  destruct (nth_error ts i) as [t|] eqn:N; [|apply IH; assumption]. destruct (turn y hash a dir t) as [[dir' t']|] eqn:H; [|apply IH; assumption].
  apply IH. exact (turn_open _ _ _ _ _ _ _ O N H).
Qed.
Lemma start_open : forall dir calls, open_tasks dir (dry_run_tasks calls).
Proof. intros dir calls t I. apply in_map_iff in I. destruct I as (cs & <- & _). unfold open_ok. cbn. destruct cs; exact Logic.I. Qed.

(** A task that has something left to do can do it. *)
Lemma never_stuck : forall (st : L) schedule dir calls dir' ts' t, run y hash schedule dir (dry_run_tasks calls) = (dir', ts') ->
  In t ts' -> t_calls t <> [] -> exists a, goes_well a = true /\ turn y hash a dir' t <> None.
Proof.
  intros st schedule dir calls dir' ts' t R I NE. pose proof (run_open schedule dir _ (start_open dir calls)) as O. rewrite R in O. specialize (O t I). cbn [fst] in O.
  unfold open_ok in O. unfold turn. destruct t as [s cs ans]. cbn [t_calls t_stage t_answers] in *. destruct cs as [|c rest]; [contradiction|].
  destruct s as [|got| |b|b k].
  - exists Look. split; [reflexivity|]. destruct (dir' (call_file hash c)); discriminate.
  - exists (Read 0). split; [reflexivity|]. destruct O as (f & ->). destruct (firstn _ _); discriminate.
  - exists (Compress st). split; [reflexivity|]. destruct (compress_with_algorithm _ _ _ _ _) as [[[[]|] ]| |]; discriminate.
  - exists Create. split; [reflexivity|discriminate].
  - exists (Write 0). split; [reflexivity|]. destruct O as (f & ->). destruct (_ <=? _); discriminate.
Qed.

Lemma run_progress : forall schedule dir ts, (forall i, ~ In (i, CreateFails) schedule) -> open_tasks dir ts ->
  forall i cs, (forall t, nth_error ts i = Some t -> progress dir cs t) ->
  forall t, nth_error (snd (run y hash schedule dir ts)) i = Some t -> progress (fst (run y hash schedule dir ts)) cs t.
Proof.
  induction schedule as [|[j a] schedule IH]; intros dir ts NF O i cs P t N; cbn [run] in *; [exact (P t N)|].
  assert (NF' : forall i, ~ In (i, CreateFails) schedule) by (intros i' I; exact (NF i' (or_intror I))).
  destruct (nth_error ts j) as [t0|] eqn:N0; [|exact (IH dir ts NF' O i cs P t N)].
  destruct (turn y hash a dir t0) as [[dir' t']|] eqn:H; [|exact (IH dir ts NF' O i cs P t N)].
  refine (IH dir' _ NF' (turn_open _ _ _ _ _ _ _ O N0 H) i cs _ t N).
  destruct (turn_cases y hash _ _ _ _ _ H) as (c & rest & E & T). intros t1 N1. rewrite nth_replace, N0 in N1. destruct (Nat.eqb_spec i j) as [->|D].
  - injection N1 as <-. pose proof (O t0 (nth_error_In _ _ N0)) as O0. specialize (P t0 N0).
    assert (Task (t_stage t0) (c :: rest) (t_answers t0) = t0) as Et by (destruct t0; cbn in *; congruence).
    apply (turned_progress _ _ _ _ _ _ _ _ cs T); [intros ->; exact (NF j (or_introl eq_refl))|rewrite Et; exact O0|rewrite Et; exact P].
  - apply (progress_kept dir); [exact (turned_kept y hash _ _ _ _ _ _ _ _ T)|exact (P t1 N1)].
Qed.
Lemma all_present : forall schedule dir calls dir' ts', (forall i, ~ In (i, CreateFails) schedule) ->
  run y hash schedule dir (dry_run_tasks calls) = (dir', ts') ->
  forall i cs t c, nth_error calls i = Some cs -> nth_error ts' i = Some t -> List.length (t_answers t) = List.length cs -> In c cs ->
  exists f, dir' (call_file hash c) = Some f.
Proof.
  intros schedule dir calls dir' ts' NF R i cs t c N1 N2 LA I.
  pose proof (run_progress schedule dir (dry_run_tasks calls) NF (start_open dir calls) i cs) as P. rewrite R in P. cbn [fst snd] in P.
  assert (P0 : forall t0, nth_error (dry_run_tasks calls) i = Some t0 -> progress dir cs t0).
  { intros t0 N0. unfold dry_run_tasks in N0. rewrite nth_error_map, N1 in N0. injection N0 as <-. split; [left; reflexivity|intros c0 []]. }
  destruct (P P0 t N2) as (_ & B). apply B. rewrite LA, firstn_all. exact I.
Qed.
End Any.

(** ** With a library that keeps its promises *)
Lemma complete_unique : forall {L} (y : zstd_codec L) frame hash ds, behaves y frame -> no_collision hash ds ->
  forall name F F', complete_file y hash ds name F -> complete_file y hash ds name F' -> F = F'.
Proof.
  intros L y frame hash ds B COL name F F' (d & l & st & b & n & st' & I & E & C & ->) (d2 & l2 & st2 & b2 & n2 & st2' & I2 & E2 & C2 & ->).
  destruct (compress_unique y frame B) as (P & HP). rewrite E in E2. apply cache_key_inj in E2. destruct E2 as (E1 & <- & _).
  pose proof (COL _ _ I I2 E1) as <-. rewrite (proj2 (HP _ _ _ _ _ _) C), (proj2 (HP _ _ _ _ _ _) C2). reflexivity.
Qed.
Lemma complete_weaken : forall {L} (y : zstd_codec L) hash ds ds' dir, (forall d, In d ds -> In d ds') -> complete_files y hash ds dir -> complete_files y hash ds' dir.
Proof. intros L y hash ds ds' dir W H name b E. destruct (H name b E) as (d & l & st & bf & n & st' & I & R). exists d, l, st, bf, n, st'. split; [exact (W d I)|exact R]. Qed.
Lemma complete_genuine : forall {L} (y : zstd_codec L) frame hash ds dir, behaves y frame -> complete_files y hash ds dir -> genuine frame hash ds dir.
Proof.
  intros L y frame hash ds dir B H name b E. destruct (H name b E) as (d & l & st & bf & n & st' & I & N & C & ->).
  destruct (compress_unique y frame B) as (P & HP). exists d, l, (P l). split; [exact I|]. split; [exact N|]. split; [exact (proj1 (HP l d st bf n st'))|exact (proj2 (HP _ _ _ _ _ _) C)].
Qed.
Lemma all_data_in : forall calls cs c, In cs calls -> In c cs -> In (call_data c) (all_data calls).
Proof. intros calls cs c I J. apply in_map. apply in_concat. eauto. Qed.

Theorem threads_complete : forall {L} (y : zstd_codec L) frame hash ds calls schedule dir dir' ts',
  behaves y frame -> no_collision hash (ds ++ all_data calls) -> complete_files y hash ds dir -> (forall i, ~ In (i, WriteFails) schedule) ->
  run y hash schedule dir (dry_run_tasks calls) = (dir', ts') ->
  forall name bytes, dir' name = Some bytes -> (forall t, In t ts' -> ~ writes hash t name) -> complete_file y hash (ds ++ all_data calls) name bytes.
Proof.
  intros L y frame hash ds calls schedule dir dir' ts' B COL H NF R.
  apply (complete_after y hash (ds ++ all_data calls) (complete_unique y frame hash _ B COL) schedule dir calls dir' ts'); [|intros cs c I J; apply in_or_app; right; exact (all_data_in calls cs c I J)|exact NF|exact R].
  apply (complete_weaken y hash ds); [intros d I; apply in_or_app; left; exact I|exact H].
Qed.
Theorem threads_finished : forall {L} (y : zstd_codec L) frame hash ds calls schedule dir dir' ts',
  behaves y frame -> no_collision hash (ds ++ all_data calls) -> complete_files y hash ds dir -> (forall i, ~ In (i, WriteFails) schedule) ->
  run y hash schedule dir (dry_run_tasks calls) = (dir', ts') -> (forall t, In t ts' -> t_calls t = []) ->
  complete_files y hash (ds ++ all_data calls) dir' /\ genuine frame hash (ds ++ all_data calls) dir'.
Proof.
  intros L y frame hash ds calls schedule dir dir' ts' B COL H NF R D.
  assert (C : complete_files y hash (ds ++ all_data calls) dir').
  { intros name bytes E. apply (threads_complete y frame hash ds calls schedule dir dir' ts' B COL H NF R name bytes E).
    intros t I (b & k & c & rest & _ & X & _). rewrite (D t I) in X. discriminate. }
  split; [exact C|]. exact (complete_genuine y frame hash _ dir' B C).
Qed.
Theorem threads_end : forall {L} (y : zstd_codec L) frame hash ds calls dir,
  behaves y frame -> no_collision hash (ds ++ all_data calls) -> complete_files y hash ds dir ->
  exists n, forall schedule, turns_taken y hash schedule dir (dry_run_tasks calls) <= n.
Proof.
  intros L y frame hash ds calls dir B COL H. destruct (compress_unique y frame B) as (P & HP).
  exists (all_work (fun c => List.length (frame (P (call_level c)) (call_data c))) (dry_run_tasks calls)). intros schedule.
  apply (turns_bounded y hash (ds ++ all_data calls) (complete_unique y frame hash _ B COL)).
  - intros c F I (d & l & st & bf & n & st' & Id & N & C & ->). apply cache_key_inj in N. destruct N as (E & <- & _).
    rewrite (COL _ _ I Id E). rewrite (proj2 (HP _ _ _ _ _ _) C). lia.
  - intros name f E. exists f. split; [|lia]. apply (complete_weaken y hash ds _ dir (fun d I => in_or_app _ _ _ (or_introl I)) H name f E).
  - intros t I. apply in_map_iff in I. destruct I as (cs & <- & I). split; [intros c Ic; apply in_or_app; right; exact (all_data_in calls cs c I Ic)|]. cbn. destruct cs; exact Logic.I.
Qed.

(** Uses one after the other leave complete files. *)
Lemma uses_complete : forall {L} (y : zstd_codec L) hash us sizes dir ds, (forall u, In u us -> not_cut u /\ In (u_data u) ds) -> complete_files y hash ds dir ->
  complete_files y hash ds (snd (uses y hash us sizes dir)).
Proof.
  intros L y hash us. induction us as [|u us IH]; intros sizes dir ds A H; cbn [uses]; [exact H|].
  assert (A' : forall u, In u us -> not_cut u /\ In (u_data u) ds) by (intros u' I; apply A; right; exact I).
  destruct (A u (or_introl eq_refl)) as (NC & I). destruct (one_use y hash u sizes dir) as [[r [[s1 c1] st1]]|w|w] eqn:E; [|apply IH; assumption|apply IH; assumption].
  apply IH; [exact A'|]. unfold one_use, compress_data_cached, load_compressed_data in E.
  destruct (dir (cache_key (hash (u_data u)) (u_level u) (u_algorithm u))); [destruct (u_reads u); injection E as <- <- <- <-; exact H|].
  destruct (u_algorithm u); [|discriminate].
  destruct (compress_with_algorithm y (u_data u) ZStandard (u_level u) (u_lib u)) as [[[[bf n]|e] st']|w|w] eqn:C; cbn [bind] in E; try discriminate; [|injection E as <- <- <- <-; exact H].
  unfold save_compressed_data in E. unfold not_cut in NC. destruct (u_fate u) as [| |k|]; cbn in E; try (injection E as <- <- <- <-; exact H); [destruct (NC k eq_refl)|].
  injection E as <- <- <- <-. intros name bytes F. unfold set_file in F. destruct (String.eqb _ _) eqn:Q; [|exact (H _ _ F)].
  apply String.eqb_eq in Q. injection F as <-. exists (u_data u), (u_level u), (u_lib u), bf, n, st'. split; [exact I|]. split; [exact Q|]. split; [exact C|reflexivity].
Qed.

(** One call alone does what [compress_data_cached] does. *)
Lemma write_at_all : forall b, write_at [] 0 b = b.
Proof. intros b. unfold write_at. cbn. rewrite skipn_nil, app_nil_r. reflexivity. Qed.
Lemma one_call : forall {L} (y : zstd_codec L) hash u sizes dir buf n sizes' dir' st',
  u_algorithm u = ZStandard -> u_reads u = true -> u_fate u = Completes ->
  one_use y hash u sizes dir = Ok (ROk (buf, n), (sizes', dir', st')) ->
  exists schedule dir2, run y hash schedule dir (dry_run_tasks [[Call (u_data u) (u_level u)]]) = (dir2, [Task Begin [] [firstn (Z.to_nat n) buf]]) /\
    forall name, dir2 name = dir' name.
Proof.
  intros L y hash u sizes dir buf n sizes' dir' st' AL RD FT E. unfold one_use, compress_data_cached, load_compressed_data in E. rewrite AL, RD, FT in E.
  set (c := Call (u_data u) (u_level u)). assert (FC : call_file hash c = cache_key (hash (u_data u)) (u_level u) ZStandard) by reflexivity.
  destruct (dir (cache_key (hash (u_data u)) (u_level u) ZStandard)) as [f|] eqn:F.
  - injection E as <- <- <- <- <-. destruct f as [|x f].
    + exists [(0, Look); (0, Read 0)]. cbn [run dry_run_tasks map nth_error turn t_calls t_stage t_answers]. rewrite FC, F. cbn [replace_nth nth_error turn t_calls t_stage t_answers].
      rewrite FC, F. cbn. eexists. split; [reflexivity|]. reflexivity.
    + exists [(0, Look); (0, Read (List.length f)); (0, Read 0)]. cbn [run dry_run_tasks map nth_error turn t_calls t_stage t_answers]. rewrite FC, F.
      cbn [replace_nth nth_error turn t_calls t_stage t_answers run]. rewrite FC, F. cbn [List.length skipn].
      rewrite (firstn_all2 (n := S (List.length f)) (x :: f)) by (cbn [List.length]; lia).
      cbn [replace_nth nth_error turn t_calls t_stage t_answers run app]. rewrite FC, F. rewrite skipn_all. cbn [firstn].
      eexists. split; [|reflexivity]. unfold returns. cbn [t_calls t_answers tl app replace_nth]. unfold zlen. rewrite Nat2Z.id, firstn_all. reflexivity.
  - destruct (compress_with_algorithm y (u_data u) ZStandard (u_level u) (u_lib u)) as [[[[bf k]|e] st2]|w|w] eqn:C; cbn [bind] in E; try discriminate.
    unfold save_compressed_data in E. cbn in E. injection E as <- <- <- <- <-. set (bytes := firstn (Z.to_nat k) bf) in *.
    exists [(0, Look); (0, Compress (u_lib u)); (0, Create); (0, Write (List.length bytes))].
    cbn [run dry_run_tasks map nth_error turn t_calls t_stage t_answers]. rewrite FC, F. cbn [replace_nth nth_error turn t_calls t_stage t_answers run].
    cbn [call_data call_level c]. rewrite C. cbn [replace_nth nth_error turn t_calls t_stage t_answers run]. fold bytes. rewrite FC, set_file_same.
    rewrite skipn_O, (firstn_all2 (n := S (List.length bytes)) bytes) by lia. rewrite write_at_all, Nat.leb_refl. cbn [Nat.add]. cbn [Nat.leb].
    eexists. split; [reflexivity|]. intros name. unfold set_file. destruct (String.eqb _ _); reflexivity.
Qed.
