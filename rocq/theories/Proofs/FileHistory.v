(** C92: histories of transforming and restoring a DDS file. *)
From Verif Require Import Base.Bytes Base.Res Model.Color565 Model.Ycc Model.Kernel Model.Transform Model.Auto Model.Builders Model.Embed Model.Bundle Model.Dds
  Model.BigEndian Model.BeTransform Model.BeFiles Model.FileHistory
  Spec.Layout Spec.BigEndian Spec.Estimator Spec.Files Spec.BeFiles Spec.Dds Spec.Release Spec.Header Spec.AnyFile Spec.FileHistory
  Proofs.DdsFacts Proofs.DdsHandler Proofs.BigEndianFacts Proofs.BeDdsHandler Proofs.LargerOutput Proofs.BeLargerOutput Proofs.ReleaseFacts Proofs.BeReleaseFacts Proofs.BundleFacts Proofs.BeBundleFacts Proofs.AnyFile Proofs.BeAnyFile.
From Coq Require Import String ZifyBool ZifyNat.
Open Scope list_scope.
Open Scope Z_scope.

Lemma app_inj_len : forall (a b c d : list byte), List.length a = List.length c -> a ++ b = c ++ d -> a = c /\ b = d.
Proof.
  intros a. induction a as [|x a IH]; intros b [|y c] d L E; try discriminate L; [split; [reflexivity|exact E]|].
  injection E as -> E. injection L as L. destruct (IH b c d L E) as (-> & ->). split; reflexivity.
Qed.
Definition release_of (p : computer) : computer := match p with LittleOne c v => LittleOne (release_build c) v | BigOne _ j v => BigOne false j v end.
Lemma fit_release : forall size p, fit size p -> fit size (release_of p).
Proof. intros size [c v|d j v] F; [|exact F]. destruct F as (([a] & b) & F). split; [|exact F]. split; [constructor; assumption|exact b]. Qed.
Lemma transform_agrees : forall St Er p (show : Er -> string) (t : bundle St Er) f out st size, fit size p ->
  same_or_panics (transform_on p show t f out st) (transform_on (release_of p) show t f out st).
Proof.
  intros St Er [c v|d j v] show t f out st size F; cbn [transform_on release_of].
  - exact (dds_agree St Er show c v t f out st (proj1 F)).
  - exact (be_dds_agree St Er show (big_endian_cpu d j) v t f out st (big_endian_ok d j)).
Qed.
Lemma restore_agrees : forall p f out size, fit size p -> same_or_panics (restore_on p f out) (restore_on (release_of p) f out).
Proof.
  intros [c v|d j v] f out size F; cbn [restore_on release_of].
  - exact (undds_agree c v f out (proj1 (proj1 F))).
  - exact (be_undds_agree (big_endian_cpu d j) v f out (big_endian_ok d j)).
Qed.
Lemma success_release : forall A (a b : res A) x, same_or_panics a b -> a = Ok x -> b = Ok x.
Proof. intros A a b x [<-|[w ->]] H; [exact H|discriminate H]. Qed.

(** [f] was made from [x] by a transform on a computer of the given byte order *)
Definition made (order : bool) (x f : list byte) : Prop :=
  exists p St Er (show : Er -> string) (t : bundle St Er) out (st : St) y st', little p = order /\ fit (zlen x) p /\ debug_build p = false /\
    transform_on p show t x out st = Ok (ROk tt, y, st') /\ f = firstn (List.length x) y.

Lemma made_facts : forall order x f, made order x f -> zlen f = zlen x /\ has_magic f = false /\ has_magic x = true /\
  exists i, parse_dds_ignore_magic false f = Ok (Some i) /\ i_data_offset i + i_data_length i <= zlen x /\ 4 <= zlen x.
Proof.
  intros order x f (p & St & Er & show & t & out & st & y & st' & O & F & D & T & ->).
  assert (P : exists i, parse_dds false x = Ok (Some i)).
  { destruct p as [c v|d j v]; cbn [transform_on debug_build] in *; [rewrite <- D; exact (transform_parses show c v t x out st y st' T)|].
    subst d. exact (be_transform_parses show (big_endian_cpu false j) v t x out st y st' T). }
  destruct P as (i & P). pose proof (parse_dds_facts _ _ _ P) as (MG & PI).
  destruct (parse_facts _ _ _ PI) as (_ & _ & HB & _ & Hn & Ho & Hx).
  set (off := i_data_offset i) in *. set (n := i_data_length i) in *.
  assert (Y : exists k s L, zlen L = n /\ off + n <= zlen x /\ y = u32_bytes (codec_header k s) ++ slice x 4 (off - 4) ++ L ++ slice x (off + n) (zlen x - (off + n)) ++ skipn (List.length x) out).
  { destruct p as [c v|d j v]; cbn [transform_on debug_build fit] in *.
    - destruct F as (K & U & _). rewrite <- D in P.
      destruct (transform_success show c v t x out st y st' i K P ltac:(rewrite D; discriminate) U T) as (k & s & _ & _ & M & L & _ & _ & Y).
      exists k, s, (texture_layout k s (slice x off n)). split; [|split; [exact L|exact Y]].
      assert (ZS : zlen (slice x off n) = n) by (apply zlen_slice; lia).
      unfold zlen at 1. rewrite layout_len by (rewrite ZS; exact M). exact ZS.
    - subst d. destruct F as (U & _).
      destruct (be_transform_success show (big_endian_cpu false j) v t x out st y st' i (big_endian_ok false j) P U T) as (k & s & _ & _ & M & L & _ & _ & Y).
      exists k, s, (be_texture_layout k s (slice x off n)). split; [|split; [exact L|exact Y]].
      assert (ZS : zlen (slice x off n) = n) by (apply zlen_slice; lia).
      unfold zlen at 1. rewrite be_layout_len by (rewrite ZS; exact M). exact ZS. }
  destruct Y as (k & s & L & LL & HX & ->).
  assert (O4 : 128 <= off) by (rewrite HB; unfold header_bytes; destruct (has_dx10 x); lia).
  assert (E : firstn (List.length x) (u32_bytes (codec_header k s) ++ slice x 4 (off - 4) ++ L ++ slice x (off + n) (zlen x - (off + n)) ++ skipn (List.length x) out)
    = u32_bytes (codec_header k s) ++ slice x 4 (off - 4) ++ L ++ slice x (off + n) (zlen x - (off + n))).
  { apply app4_length. change (zlen (u32_bytes (codec_header k s))) with 4. rewrite !zlen_slice by lia. rewrite LL. unfold zlen. lia. }
  rewrite E. set (f := u32_bytes (codec_header k s) ++ slice x 4 (off - 4) ++ L ++ slice x (off + n) (zlen x - (off + n))).
  assert (ZF : zlen f = zlen x) by (unfold f; rewrite !zlen_app; change (zlen (u32_bytes (codec_header k s))) with 4; rewrite !zlen_slice by lia; lia).
  split; [exact ZF|]. split.
  { unfold has_magic. replace (word f 0) with (codec_header k s) by (symmetry; apply word_head, codec_header_bound).
    pose proof (codec_header_not_magic k s). lia. }
  split; [exact MG|]. exists i. split; [|split; [exact HX|lia]].
  assert (X : x = slice x 0 4 ++ slice x 4 (off - 4) ++ slice x off n ++ slice x (off + n) (zlen x - (off + n))).
  { rewrite (cut3 x off n) at 1 by lia. replace off with (4 + (off - 4)) at 1 by lia. rewrite slice_app_split by lia. rewrite <- app_assoc. reflexivity. }
  rewrite <- PI. apply parse_cong; [lia|]. intros o H1 H2. rewrite X at 1. unfold f.
  assert (Z4 : zlen (slice x 0 4) = 4) by (apply zlen_slice; lia). assert (ZH : zlen (slice x 4 (off - 4)) = off - 4) by (apply zlen_slice; lia).
  apply word_mid; [apply zlen_eq; rewrite Z4; reflexivity|change (zlen (u32_bytes (codec_header k s))) with 4; lia|change (zlen (u32_bytes (codec_header k s))) with 4; lia].
Qed.

(** A release build restores it. *)
Lemma made_restored : forall order x f p out, made order x f -> little p = order -> fit (zlen x) p -> debug_build p = false -> zlen out = zlen x ->
  restore_on p f out = Ok (ROk tt, x).
Proof.
  intros order x f p out (p1 & St & Er & show & t & out1 & st & y & st' & O1 & F1 & D1 & T & ->) O F D L.
  assert (SK : x ++ skipn (List.length x) out = x) by (rewrite skipn_all2 by (apply Nat.eq_le_incl, zlen_eq; exact L); apply app_nil_r).
  destruct p as [c v|d j v], p1 as [c1 v1|d1 j1 v1]; cbn [little] in *; try (rewrite <- O1 in O; discriminate O); cbn [fit debug_build transform_on restore_on] in *.
  - destruct F as (K & U & R). destruct F1 as (K1 & U1 & R1). destruct (transform_parses show c1 v1 t x out1 st y st' T) as (i & P).
    rewrite (dds_round_trip St Er show c1 c v1 v t x out1 out st st' y i K1 K P); [rewrite SK; reflexivity|rewrite D, D1; intros [H|H]; discriminate H|rewrite D; discriminate|exact U1|exact R|exact T|lia|intros _; exact L].
  - subst d d1. destruct F as (U & R). destruct F1 as (U1 & R1). destruct (be_transform_parses show _ v1 t x out1 st y st' T) as (i & P).
    rewrite (be_dds_round_trip St Er show (big_endian_cpu false j1) (big_endian_cpu false j) v1 v t x out1 out st st' y i (big_endian_ok false j1) (big_endian_ok false j) P);
      [rewrite SK; reflexivity|discriminate|exact U1|exact R|exact T|lia|intros _; exact L].
Qed.

(** Whatever the output buffer is: if a release build reports success, the file is back. *)
Lemma made_success : forall order x f p out u y, made order x f -> little p = order -> fit (zlen x) p -> debug_build p = false ->
  restore_on p f out = Ok (ROk u, y) -> firstn (List.length f) y = x.
Proof.
  intros order x f p out u y MD O F D R. destruct (made_facts _ _ _ MD) as (ZF & _ & _ & i & P & HI & H4).
  assert (LE : zlen f <= zlen out).
  { destruct (Z_lt_le_dec (zlen out) (zlen f)) as [LT|]; [exfalso|assumption].
    destruct p as [c v|d j v]; cbn [restore_on] in R; [unfold dds_untransform in R|unfold be_dds_untransform in R];
      replace (zlen f <? 4) with false in R by lia; replace (zlen out <? zlen f) with true in R by lia; discriminate R. }
  set (o1 := firstn (List.length f) out). set (o2 := skipn (List.length f) out).
  assert (OE : out = o1 ++ o2) by (symmetry; apply firstn_skipn).
  assert (ZO : zlen o1 = zlen f) by (unfold o1, zlen in *; rewrite firstn_length; lia).
  pose proof (made_restored order x f p o1 MD O F D ltac:(lia)) as RR.
  assert (E : y = x ++ o2).
  { pose (w := Env (2 ^ 64 - 1) (fun _ => true)). assert (W : 2 ^ 32 + 147 <= usize_max w) by (vm_compute; discriminate).
    destruct p as [c v|d j v]; cbn [restore_on fit debug_build little] in *.
    - destruct F as (K & U & RM).
      assert (WD : forall o, dds_untransform c v f o = dds_untransform c w f o).
      { intros o. apply untransform_wide. intros i' P'. rewrite D, P in P'. injection P' as <-. split; [lia|]. destruct (parse_facts _ _ _ P) as (_ & _ & _ & _ & Hn & Ho & _). cbn [w usize_max]. lia. }
      rewrite WD in R, RR. rewrite OE in R. rewrite (untransform_longer c w f o1 o2 K W ZO) in R. rewrite RR in R. cbv zeta in R.
      destruct (_ && _) in R; [discriminate R|]. injection R as _ <-. reflexivity.
    - subst d. destruct F as (U & RM).
      assert (WD : forall o, be_dds_untransform (big_endian_cpu false j) v f o = be_dds_untransform (big_endian_cpu false j) w f o).
      { intros o. apply be_untransform_wide. cbn [big_endian_cpu c_debug]. intros i' P'. rewrite P in P'. injection P' as <-. split; [lia|]. destruct (parse_facts _ _ _ P) as (_ & _ & _ & _ & Hn & Ho & _). cbn [w usize_max]. lia. }
      rewrite WD in R, RR. rewrite OE in R. rewrite (be_untransform_longer _ w f o1 o2 (big_endian_ok false j) W ZO) in R. rewrite RR in R. cbv zeta in R.
      destruct (_ && _) in R; [discriminate R|]. injection R as _ <-. reflexivity. }
  rewrite E. replace (List.length f) with (List.length x) by (symmetry; apply zlen_eq; exact ZF).
  rewrite firstn_app, firstn_all, Nat.sub_diag. apply app_nil_r.
Qed.

(** One action. *)
Lemma act_plain : forall order x p a, has_magic x = true -> little p = order -> fit (zlen x) p -> act p a x = x \/ made order x (act p a x).
Proof.
  intros order x p a MG O F. destruct a as [St Er show t st out|out]; cbn [act].
  - destruct (transform_on p show t x out st) as [[[[u|e] y] st']| |] eqn:T; try (left; reflexivity). right. destruct u.
    pose proof (success_release _ _ _ _ (transform_agrees St Er p show t x out st (zlen x) F) T) as T'.
    exists (release_of p), St, Er, show, t, out, st, y, st'. split; [destruct p; exact O|]. split; [apply fit_release; exact F|].
    split; [destruct p; reflexivity|]. split; [exact T'|reflexivity].
  - left. destruct (restore_on p x out) as [[[u|e] y]| |] eqn:R; try reflexivity. exfalso. destruct u.
    destruct p as [c v|d j v]; cbn [restore_on] in R; [exact (plain_not_untransformed c v x out y MG R)|exact (be_plain_not_untransformed _ v x out y MG R)].
Qed.
Lemma no_magic_refused : forall St Er p (show : Er -> string) (t : bundle St Er) f out st u y st', has_magic f = false ->
  transform_on p show t f out st <> Ok (ROk u, y, st').
Proof.
  intros St Er p show t f out st u y st' MG T. destruct u.
  assert (P : exists d i, parse_dds d f = Ok (Some i)).
  { destruct p as [c v|d j v]; cbn [transform_on] in T; [exists (c_debug c); exact (transform_parses show c v t f out st y st' T)|].
    exists d. exact (be_transform_parses show _ v t f out st y st' T). }
  destruct P as (d & i & P). apply parse_dds_facts in P. destruct P as (P & _). rewrite MG in P. discriminate P.
Qed.
Lemma act_made : forall order x f p a, made order x f -> little p = order -> fit (zlen x) p -> act p a f = f \/ act p a f = x.
Proof.
  intros order x f p a MD O F. destruct (made_facts _ _ _ MD) as (ZF & NM & _). destruct a as [St Er show t st out|out]; cbn [act].
  - left. destruct (transform_on p show t f out st) as [[[[u|e] y] st']| |] eqn:T; try reflexivity.
    exfalso. exact (no_magic_refused _ _ _ _ _ _ _ _ _ _ _ NM T).
  - destruct (restore_on p f out) as [[[u|e] y]| |] eqn:R; try (left; reflexivity). right.
    pose proof (success_release _ _ _ _ (restore_agrees p f out (zlen x) F) R) as R'.
    apply (made_success order x f (release_of p) out u y); try assumption; [destruct p; exact O|apply fit_release; exact F|destruct p; reflexivity].
Qed.
Lemma acts_made : forall order x l f, one_order order (zlen x) l -> has_magic x = true -> f = x \/ made order x f -> acts l f = x \/ made order x (acts l f).
Proof.
  intros order x l. induction l as [|[p a] l IH]; intros f OO MG S; [exact S|]. apply Forall_cons_iff in OO. destruct OO as ((O & F) & OO). cbn [fst] in O, F.
  cbn [acts]. apply IH; [exact OO|exact MG|]. destruct S as [->|MD].
  - apply act_plain; assumption.
  - destruct (act_made order x f p a MD O F) as [->| ->]; [right; exact MD|left; reflexivity].
Qed.

Lemma never_lost : forall order l x, one_order order (zlen x) l -> has_magic x = true ->
  let f := acts l x in
  zlen f = zlen x /\ (has_magic f = true -> f = x) /\
  (has_magic f = false -> forall p out, little p = order -> fit (zlen x) p -> zlen out = zlen x ->
     same_or_panics (restore_on p f out) (Ok (ROk tt, x)) /\ (debug_build p = false -> restore_on p f out = Ok (ROk tt, x))).
Proof.
  intros order l x OO MG f. pose proof (acts_made order x l x OO MG (or_introl eq_refl)) as S. fold f in S. destruct S as [E|MD].
  - rewrite E. split; [reflexivity|]. split; [reflexivity|]. rewrite MG. discriminate.
  - destruct (made_facts _ _ _ MD) as (ZF & NM & _). split; [exact ZF|]. split; [rewrite NM; discriminate|]. intros _ p out O F L. split.
    + rewrite <- (made_restored order x f (release_of p) out MD); [exact (restore_agrees p f out (zlen x) F)|destruct p; exact O|apply fit_release; exact F|destruct p; reflexivity|exact L].
    + intros D. exact (made_restored order x f p out MD O F D L).
Qed.

Lemma takes_turns : forall order l x p, one_order order (zlen x) l -> has_magic x = true -> little p = order -> fit (zlen x) p ->
  let f := acts l x in
  (has_magic f = false -> forall St Er (show : Er -> string) (t : bundle St Er) (st : St) out, act p (Transforming St Er show t st out) f = f) /\
  (has_magic f = true -> forall out, act p (Restoring out) f = f) /\
  (forall a, act p a f <> f -> has_magic (act p a f) = negb (has_magic f)).
Proof.
  intros order l x p OO MG O F f. split; [|split].
  - intros NM St Er show t st out. cbn [act]. destruct (transform_on p show t f out st) as [[[[u|e] y] st']| |] eqn:T; try reflexivity.
    exfalso. exact (no_magic_refused _ _ _ _ _ _ _ _ _ _ _ NM T).
  - intros M out. cbn [act]. destruct (restore_on p f out) as [[[u|e] y]| |] eqn:R; try reflexivity. exfalso. destruct u.
    destruct p as [c v|d j v]; cbn [restore_on] in R; [exact (plain_not_untransformed c v f out y M R)|exact (be_plain_not_untransformed _ v f out y M R)].
  - intros a NE. pose proof (acts_made order x l x OO MG (or_introl eq_refl)) as S. fold f in S. destruct S as [E|MD].
    + destruct (act_plain order f p a) as [Q|Q]; [rewrite E; exact MG|exact O|rewrite E; exact F|contradiction|].
      destruct (made_facts _ _ _ Q) as (_ & NM & MF & _). rewrite NM, MF. reflexivity.
    + destruct (act_made order x f p a MD O F) as [Q|Q]; [contradiction|]. rewrite Q. destruct (made_facts _ _ _ MD) as (_ & NM & _). rewrite NM, MG. reflexivity.
Qed.

(** What a restoring release build accepts. *)
Lemma restored_facts : forall p z out o, fit (zlen z) p -> debug_build p = false -> zlen out = zlen z -> restore_on p z out = Ok (ROk tt, o) ->
  exists i k s T, parse_dds_ignore_magic false z = Ok (Some i) /\ i_data_offset i + i_data_length i <= zlen z /\ request_of (word z 0) = Restore k s /\
    i_data_length i mod codec_block k = 0 /\ zlen T = i_data_length i /\
    (if little p then texture_layout k s T else be_texture_layout k s T) = slice z (i_data_offset i) (i_data_length i) /\
    o = (u32_bytes DDS_MAGIC ++ slice z 4 (i_data_offset i - 4)) ++ T ++
        slice z (i_data_offset i + i_data_length i) (zlen z - (i_data_offset i + i_data_length i)).
Proof.
  intros p z out o F D L R.
  assert (PA : exists i, parse_dds_ignore_magic false z = Ok (Some i) /\ i_data_offset i + i_data_length i <= zlen z).
  { destruct p as [c v|d j v]; cbn [restore_on fit debug_build] in *.
    - destruct F as (K & U & RM). pose proof R as R0. unfold dds_untransform in R0.
      destruct (zlen z <? 4); [discriminate R0|]. destruct (zlen out <? zlen z); [discriminate R0|]. cbv zeta in R0. rewrite D in R0.
      destruct (parse_dds_ignore_magic false z) as [[i|]| |] eqn:P; cbn [bind] in R0; try discriminate R0. exists i. split; [reflexivity|].
      destruct (Z_lt_le_dec (usize_max v) (i_data_offset i + i_data_length i)) as [LT|LE].
      + destruct (untransform_narrow c v z out i U ltac:(lia) ltac:(rewrite D; exact P) LT) as (w & W). rewrite W in R. discriminate R.
      + unfold usize_add in R0. replace (i_data_offset i + i_data_length i <=? usize_max v) with true in R0 by lia. cbn [bind] in R0.
        destruct (zlen z <? i_data_offset i + i_data_length i) eqn:Q; [discriminate R0|]. lia.
    - subst d. destruct F as (U & RM). pose proof R as R0. unfold be_dds_untransform in R0.
      destruct (zlen z <? 4); [discriminate R0|]. destruct (zlen out <? zlen z); [discriminate R0|]. cbv zeta in R0. cbn [big_endian_cpu c_debug] in R0.
      destruct (parse_dds_ignore_magic false z) as [[i|]| |] eqn:P; cbn [bind] in R0; try discriminate R0. exists i. split; [reflexivity|].
      destruct (Z_lt_le_dec (usize_max v) (i_data_offset i + i_data_length i)) as [LT|LE].
      + destruct (be_untransform_narrow (big_endian_cpu false j) v z out i U ltac:(lia) P LT) as (w & W). rewrite W in R. discriminate R.
      + unfold usize_add in R0. replace (i_data_offset i + i_data_length i <=? usize_max v) with true in R0 by lia. cbn [bind] in R0.
        destruct (zlen z <? i_data_offset i + i_data_length i) eqn:Q; [discriminate R0|]. lia. }
  destruct PA as (i & P & HI). exists i.
  destruct p as [c v|d j v]; cbn [restore_on fit debug_build little] in *.
  - destruct F as (K & U & RM). pose proof (any_file c v z out i K ltac:(rewrite D; exact P) ltac:(rewrite D; discriminate) HI RM L) as A. cbv zeta in A.
    destruct (request_of (word z 0)) as [| |k s]; try (rewrite R in A; discriminate A).
    destruct (i_data_length i mod codec_block k =? 0) eqn:M; [|rewrite R in A; discriminate A]. destruct A as (T & ZT & ET & A).
    rewrite R in A. injection A as ->. exists k, s, T. split; [exact P|]. split; [exact HI|]. split; [reflexivity|]. split; [apply Z.eqb_eq; exact M|].
    split; [exact ZT|]. split; [exact ET|reflexivity].
  - subst d. destruct F as (U & RM). pose proof (be_any_file (big_endian_cpu false j) v z out i (big_endian_ok false j) P HI RM L) as A. cbv zeta in A.
    destruct (request_of (word z 0)) as [| |k s]; try (rewrite R in A; discriminate A).
    destruct (i_data_length i mod codec_block k =? 0) eqn:M; [|rewrite R in A; discriminate A]. destruct A as (T & ZT & ET & A).
    rewrite R in A. injection A as ->. exists k, s, T. split; [exact P|]. split; [exact HI|]. split; [reflexivity|]. split; [apply Z.eqb_eq; exact M|].
    split; [exact ZT|]. split; [exact ET|reflexivity].
Qed.

(** Transforming with chosen settings, release build. *)
Lemma manual_pieces : forall St Er p (show : Er -> string) (st : St) k s M H T R out2 i,
  fit (zlen (M ++ H ++ T ++ R)) p -> debug_build p = false -> zlen M = 4 ->
  parse_dds false ((M ++ H) ++ T ++ R) = Ok (Some i) -> i_format i = codec_dds k -> i_data_offset i = 4 + zlen H -> i_data_length i = zlen T ->
  zlen T mod codec_block k = 0 -> zlen out2 = zlen (M ++ H ++ T ++ R) ->
  transform_on p show (installed [WithManual (St := St) (Er := Er) k (ManualBuilder s)]) ((M ++ H) ++ T ++ R) out2 st =
  Ok (ROk tt, u32_bytes (codec_header k s) ++ H ++ (if little p then texture_layout k s T else be_texture_layout k s T) ++ R, st).
Proof.
  intros St Er p show st k s M H T R out2 i F D LM P FM PO PL HM LO.
  pose proof (zlen_nonneg _ H) as NH. pose proof (zlen_nonneg _ T) as NT. pose proof (zlen_nonneg _ R) as NR.
  rewrite !zlen_app in LO, F. rewrite LM in LO, F.
  set (oH := slice out2 0 (4 + zlen H)). set (oT := slice out2 (4 + zlen H) (zlen T)). set (oR := slice out2 (4 + zlen H + zlen T) (zlen out2 - (4 + zlen H + zlen T))).
  assert (O : out2 = oH ++ oT ++ oR) by (apply cut3; lia).
  assert (LoH : zlen oH = 4 + zlen H) by (apply zlen_slice; lia). assert (LoT : zlen oT = zlen T) by (apply zlen_slice; lia). assert (LoR : zlen oR = zlen R) by (unfold oR; rewrite zlen_slice by lia; lia).
  assert (LMH : zlen (M ++ H) = 4 + zlen H) by (rewrite zlen_app; lia).
  set (Y := if little p then texture_layout k s T else be_texture_layout k s T).
  assert (LY : zlen Y = zlen T).
  { unfold Y. destruct (little p); unfold zlen at 1; [rewrite layout_len by exact HM|rewrite be_layout_len by exact HM]; reflexivity. }
  assert (WR : forall tl, write_to_ptr (codec_header k s) ((M ++ H) ++ tl) 0 = u32_bytes (codec_header k s) ++ H ++ tl).
  { intros tl. rewrite <- app_assoc. unfold write_to_ptr. apply (splice_mid [] M); [reflexivity|]. apply zlen_eq. rewrite LM. reflexivity. }
  assert (END : (do output <- (if 0 <? zlen R
             then copy_range (splice ((M ++ H) ++ oT ++ oR) (zlen (M ++ H)) Y) (zlen (M ++ H) + zlen T) (zlen (splice ((M ++ H) ++ oT ++ oR) (zlen (M ++ H)) Y)) R
             else Ok (splice ((M ++ H) ++ oT ++ oR) (zlen (M ++ H)) Y)) ;;
          Ok (ROk (E := transform_error) tt, write_to_ptr (codec_header k s) output 0, st)) = Ok (ROk tt, u32_bytes (codec_header k s) ++ H ++ Y ++ R, st)).
  { rewrite splice_mid by (try apply zlen_eq; lia). destruct (0 <? zlen R) eqn:ZR.
    - rewrite (app_assoc (M ++ H) Y oR). rewrite copy_tail by (rewrite ?zlen_app; lia). cbn [bind]. rewrite <- app_assoc, WR. reflexivity.
    - cbn [bind]. rewrite WR. assert (RN : forall l : list byte, zlen l <= 0 -> l = []) by (intros [|b l] Q; [reflexivity|rewrite zlen_cons in Q; pose proof (zlen_nonneg _ l); lia]).
      rewrite (RN R), (RN oR) by lia. reflexivity. }
  assert (FF : dds_format_to_transform_format (i_format i) false = ROk (codec_format k)) by (rewrite FM; destruct k; reflexivity).
  assert (SK : skipn (List.length T) oT = []) by (apply skipn_all2; apply Nat.eq_le_incl, zlen_eq; exact LoT).
  rewrite O. destruct p as [c v|d j v]; cbn [transform_on fit debug_build little] in *.
  - destruct F as (K & U & RM). rewrite (transform_pieces show c v _ (M ++ H) T R oH oT oR st i) by (rewrite ?D; try assumption; lia).
    rewrite FF, dispatch_manual by lia. rewrite core_transform_ok; [|exact K|rewrite D; discriminate|exact HM|lia]. cbn [bind fst snd mb_settings].
    rewrite SK, app_nil_r. exact END.
  - subst d. destruct F as (U & RM). rewrite (be_transform_pieces show _ v _ (M ++ H) T R oH oT oR st i) by (try exact P; try assumption; lia).
    rewrite FF, be_dispatch_manual by lia. rewrite be_core_transform_ok; [|exact (big_endian_ok false j)|exact HM|lia]. cbn [bind fst snd mb_settings].
    rewrite SK, app_nil_r. exact END.
Qed.

Lemma given_back : forall p z out o, fit (zlen z) p -> zlen out = zlen z -> restore_on p z out = Ok (ROk tt, o) ->
  exists k s, request_of (word z 0) = Restore k s /\ has_magic o = true /\ zlen o = zlen z /\
    (stated_format z = codec_dds k ->
     forall St Er (show : Er -> string) (st : St) p2 out2, little p2 = little p -> fit (zlen z) p2 -> zlen out2 = zlen z ->
       let again := transform_on p2 show (installed [WithManual (St := St) (Er := Er) k (ManualBuilder s)]) o out2 st in
       let z' := with_word (u32_bytes (codec_header k s)) z in
       same_or_panics again (Ok (ROk tt, z', st)) /\ (debug_build p2 = false -> again = Ok (ROk tt, z', st))).
Proof.
  intros p z out o F L R.
  pose proof (success_release _ _ _ _ (restore_agrees p z out (zlen z) F) R) as R'.
  destruct (restored_facts (release_of p) z out o (fit_release _ _ F) ltac:(destruct p; reflexivity) L R') as (i & k & s & T & P & HI & Q & HM & ZT & ET & OE).
  replace (little (release_of p)) with (little p) in ET by (destruct p; reflexivity).
  destruct (parse_facts _ _ _ P) as (CH & RL & HB & FM & Hn & Ho & Hx).
  set (off := i_data_offset i) in *. set (n := i_data_length i) in *. set (H := slice z 4 (off - 4)) in *. set (RR := slice z (off + n) (zlen z - (off + n))) in *.
  assert (LH : zlen H = off - 4) by (apply zlen_slice; lia). assert (LR : zlen RR = zlen z - (off + n)) by (apply zlen_slice; lia).
  assert (LG : zlen (u32_bytes DDS_MAGIC) = 4) by reflexivity.
  assert (L4 : zlen (slice z 0 4) = 4) by (apply zlen_slice; lia).
  assert (ZC : z = slice z 0 4 ++ H ++ slice z off n ++ RR).
  { rewrite (cut3 z off n) at 1 by lia. replace off with (4 + (off - 4)) at 1 by lia. rewrite slice_app_split by lia. rewrite <- app_assoc. reflexivity. }
  assert (LZ : zlen o = zlen z) by (rewrite OE, !zlen_app; lia).
  assert (MG : has_magic o = true) by (unfold has_magic; rewrite OE, <- app_assoc; rewrite word_head by (vm_compute; split; [discriminate|reflexivity]); reflexivity).
  exists k, s. split; [exact Q|]. split; [exact MG|]. split; [exact LZ|].
  intros SF St Er show st p2 out2 O2 F2 L2 again z'.
  assert (PO : parse_dds false o = Ok (Some i)).
  { assert (PI : parse_dds_ignore_magic false o = Ok (Some i)).
    { rewrite <- P. apply parse_cong; [lia|]. intros a H1 H2. rewrite OE, <- app_assoc. rewrite ZC at 1. apply word_mid; [apply zlen_eq; lia|lia|lia]. }
    unfold parse_dds. rewrite likely_eq, MG. replace (128 <=? zlen o) with true by lia. cbn [andb negb]. exact PI. }
  assert (REL : forall p3, little p3 = little p -> fit (zlen z) p3 -> debug_build p3 = false ->
     transform_on p3 show (installed [WithManual (St := St) (Er := Er) k (ManualBuilder s)]) o out2 st = Ok (ROk tt, z', st)).
  { intros p3 O3 F3 D3. rewrite OE in PO |- *.
    assert (LE : zlen (u32_bytes DDS_MAGIC ++ H ++ T ++ RR) = zlen z) by (rewrite !zlen_app; lia).
    rewrite (manual_pieces St Er p3 show st k s (u32_bytes DDS_MAGIC) H T RR out2 i); try assumption; try lia.
    - do 3 f_equal. rewrite O3, ET. unfold z', with_word. f_equal. rewrite ZC at 2.
      replace 4%nat with (List.length (slice z 0 4)) by (unfold zlen in L4; lia). rewrite skipn_app, skipn_all, Nat.sub_diag. reflexivity.
    - rewrite LE. exact F3.
    - rewrite FM. exact SF.
    - rewrite ZT. exact HM. }
  split.
  - rewrite <- (REL (release_of p2)); [exact (transform_agrees St Er p2 show _ o out2 st (zlen z) F2)|destruct p2; exact O2|apply fit_release; exact F2|destruct p2; reflexivity].
  - intros D2. apply REL; assumption.
Qed.

Lemma never_merged : forall p1 p2 z1 z2 out1 out2 o, little p1 = little p2 -> fit (zlen z1) p1 -> fit (zlen z2) p2 -> zlen out1 = zlen z1 -> zlen out2 = zlen z2 ->
  restore_on p1 z1 out1 = Ok (ROk tt, o) -> restore_on p2 z2 out2 = Ok (ROk tt, o) ->
  bits (word z1 0) 0 9 = bits (word z2 0) 0 9 -> skipn 4 z1 = skipn 4 z2.
Proof.
  intros p1 p2 z1 z2 out1 out2 o OO F1 F2 L1 L2 R1 R2 B.
  pose proof (success_release _ _ _ _ (restore_agrees p1 z1 out1 (zlen z1) F1) R1) as R1'. pose proof (success_release _ _ _ _ (restore_agrees p2 z2 out2 (zlen z2) F2) R2) as R2'.
  destruct (restored_facts (release_of p1) z1 out1 o (fit_release _ _ F1) ltac:(destruct p1; reflexivity) L1 R1') as (i1 & k1 & s1 & T1 & P1 & HI1 & Q1 & HM1 & ZT1 & ET1 & OE1).
  destruct (restored_facts (release_of p2) z2 out2 o (fit_release _ _ F2) ltac:(destruct p2; reflexivity) L2 R2') as (i2 & k2 & s2 & T2 & P2 & HI2 & Q2 & HM2 & ZT2 & ET2 & OE2).
  replace (little (release_of p1)) with (little p1) in ET1 by (destruct p1; reflexivity). replace (little (release_of p2)) with (little p2) in ET2 by (destruct p2; reflexivity).
  rewrite (word_bits _ _ B), Q2 in Q1. injection Q1 as -> ->.
  (* the headers of both are those of [o] *)
  assert (PO : forall z i (T : list byte), parse_dds_ignore_magic false z = Ok (Some i) -> i_data_offset i + i_data_length i <= zlen z -> zlen T = i_data_length i ->
    o = (u32_bytes DDS_MAGIC ++ slice z 4 (i_data_offset i - 4)) ++ T ++ slice z (i_data_offset i + i_data_length i) (zlen z - (i_data_offset i + i_data_length i)) ->
    parse_dds_ignore_magic false o = Ok (Some i) /\ skipn 4 z = slice z 4 (i_data_offset i - 4) ++ slice z (i_data_offset i) (i_data_length i) ++ slice z (i_data_offset i + i_data_length i) (zlen z - (i_data_offset i + i_data_length i)) /\
    zlen (slice z 4 (i_data_offset i - 4)) = i_data_offset i - 4).
  { intros z i T P HI ZT OE. destruct (parse_facts _ _ _ P) as (CH & RL & HB & FM & Hn & Ho & Hx).
    set (off := i_data_offset i) in *. set (n := i_data_length i) in *. set (H := slice z 4 (off - 4)) in *. set (RR := slice z (off + n) (zlen z - (off + n))) in *.
    assert (LH : zlen H = off - 4) by (apply zlen_slice; lia). assert (LR : zlen RR = zlen z - (off + n)) by (apply zlen_slice; lia).
    assert (LG : zlen (u32_bytes DDS_MAGIC) = 4) by reflexivity. assert (L4 : zlen (slice z 0 4) = 4) by (apply zlen_slice; lia).
    assert (ZC : z = slice z 0 4 ++ H ++ slice z off n ++ RR).
    { rewrite (cut3 z off n) at 1 by lia. replace off with (4 + (off - 4)) at 1 by lia. rewrite slice_app_split by lia. rewrite <- app_assoc. reflexivity. }
    split; [|split; [|exact LH]].
    - rewrite <- P. apply parse_cong; [rewrite OE, !zlen_app; lia|]. intros a H1 H2. rewrite OE, <- app_assoc. rewrite ZC at 1. apply word_mid; [apply zlen_eq; lia|lia|lia].
    - rewrite ZC at 1. replace 4%nat with (List.length (slice z 0 4)) by (unfold zlen in L4; lia). rewrite skipn_app, skipn_all, Nat.sub_diag. reflexivity. }
  destruct (PO z1 i1 T1 P1 HI1 ZT1 OE1) as (PA & SA & LA). destruct (PO z2 i2 T2 P2 HI2 ZT2 OE2) as (PB & SB & LB).
  rewrite PA in PB. injection PB as ->. rewrite SA, SB. rewrite OE1 in OE2. rewrite <- !app_assoc in OE2.
  apply app_inv_head in OE2. apply app_inj_len in OE2; [|apply zlen_eq; congruence]. destruct OE2 as (E1 & E2).
  apply app_inj_len in E2; [|apply zlen_eq; congruence]. destruct E2 as (E2 & E3). rewrite E1, E3. do 2 f_equal. rewrite <- ET1, <- ET2, OO, E2. reflexivity.
Qed.
