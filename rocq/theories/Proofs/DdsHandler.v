(** The DDS handler: transform, untransform, detection, block extraction. *)
From Verif Require Import Base.Bytes Base.Res Model.Color565 Model.Ycc Model.Kernel Model.Transform Model.Auto Model.Builders Model.Embed Model.Bundle Model.Dds.
From Verif Require Import Spec.Layout Spec.Estimator Spec.Header Spec.Files Spec.Dds Proofs.SliceFacts Proofs.AutoTheorems Proofs.EmbedFacts Proofs.BundleFacts Proofs.DdsFacts.
From Coq Require Import ZifyBool.

(** ** Lists in pieces *)
Lemma splice_mid : forall (a b c d : list byte) off, zlen a = off -> List.length b = List.length d -> splice (a ++ b ++ c) off d = a ++ d ++ c.
Proof.
  intros a b c d off Ha Hb. unfold splice, zlen in *. replace (Z.to_nat off) with (List.length a) by lia.
  rewrite firstn_app, firstn_all, Nat.sub_diag, app_nil_r. f_equal. f_equal.
  rewrite <- Hb, app_assoc, skipn_app, skipn_all2 by (rewrite app_length; lia). rewrite app_length.
  replace (_ - _)%nat with 0%nat by lia. reflexivity.
Qed.
Lemma range_mid : forall (a b c : list byte) off e, zlen a = off -> off + zlen b = e -> range (a ++ b ++ c) off e = Ok b.
Proof.
  intros a b c off e Ha He. pose proof (zlen_nonneg _ b). pose proof (zlen_nonneg _ a). pose proof (zlen_nonneg _ c). unfold range. rewrite !zlen_app.
  replace ((0 <=? off) && (off <=? e) && (e <=? zlen a + (zlen b + zlen c))) with true by lia.
  f_equal. unfold slice, zlen in *. replace (Z.to_nat off) with (List.length a) by lia. replace (Z.to_nat (e - off)) with (List.length b) by lia.
  rewrite skipn_app, skipn_all, Nat.sub_diag. cbn [skipn app]. rewrite firstn_app, firstn_all, Nat.sub_diag. apply app_nil_r.
Qed.
Lemma copy_mid : forall (a b c d : list byte) off e, zlen a = off -> off + zlen b = e -> zlen b = zlen d -> copy_range (a ++ b ++ c) off e d = Ok (a ++ d ++ c).
Proof.
  intros a b c d off e Ha He Hb. unfold copy_range. rewrite (range_mid a b c off e Ha He). cbn [bind].
  replace (zlen b =? zlen d) with true by lia. rewrite splice_mid; [reflexivity|exact Ha|unfold zlen in Hb; lia].
Qed.
Lemma range_head : forall (b c : list byte) e, zlen b = e -> range (b ++ c) 0 e = Ok b.
Proof. intros b c e H. exact (range_mid [] b c 0 e eq_refl H). Qed.
Lemma copy_head : forall (b c d : list byte) e, zlen b = e -> zlen b = zlen d -> copy_range (b ++ c) 0 e d = Ok (d ++ c).
Proof. intros b c d e H Hd. exact (copy_mid [] b c d 0 e eq_refl H Hd). Qed.
Lemma range_tail : forall (a b : list byte) off e, zlen a = off -> off + zlen b = e -> range (a ++ b) off e = Ok b.
Proof. intros a b off e Ha He. pose proof (range_mid a b [] off e Ha He) as R. rewrite app_nil_r in R. exact R. Qed.
Lemma copy_tail : forall (a b d : list byte) off e, zlen a = off -> off + zlen b = e -> zlen b = zlen d -> copy_range (a ++ b) off e d = Ok (a ++ d).
Proof. intros a b d off e Ha He Hd. pose proof (copy_mid a b [] d off e Ha He Hd) as R. rewrite !app_nil_r in R. exact R. Qed.
Lemma word_mid : forall (a a' b c c' : list byte) o, List.length a = List.length a' -> zlen a <= o -> o + 4 <= zlen a + zlen b ->
  word (a ++ b ++ c) o = word (a' ++ b ++ c') o.
Proof.
  intros a a' b c c' o L Ho He. unfold word.
  assert (E : forall i, 0 <= i < 4 -> znth (a ++ b ++ c) (o + i) = znth (a' ++ b ++ c') (o + i)).
  { intros i Hi. unfold znth, zlen in *. rewrite (app_nth2 a), (app_nth2 a') by lia. rewrite <- L. rewrite !app_nth1 by lia. reflexivity. }
  pose proof (E 0 ltac:(lia)) as E0. rewrite Z.add_0_r in E0. rewrite E0, !E by lia. reflexivity.
Qed.
Lemma word_head : forall h rest, 0 <= h < 2 ^ 32 -> word (u32_bytes h ++ rest) 0 = h.
Proof. intros h rest Hh. exact (read_write h (x00 :: x00 :: x00 :: x00 :: rest) 0 Hh ltac:(lia) ltac:(unfold zlen; cbn [List.length]; lia)). Qed.

(** A list cut at two places. *)
Lemma cut3 : forall (x : list byte) o n, 0 <= o -> 0 <= n -> o + n <= zlen x ->
  x = slice x 0 o ++ slice x o n ++ slice x (o + n) (zlen x - (o + n)).
Proof.
  intros x o n Ho Hn H. unfold slice, zlen in *. change (Z.to_nat 0) with 0%nat. rewrite skipn_O.
  rewrite <- (firstn_skipn (Z.to_nat o) x) at 1. f_equal. rewrite <- (firstn_skipn (Z.to_nat n) (skipn (Z.to_nat o) x)) at 1. f_equal.
  rewrite skipn_skipn'. rewrite firstn_all2; [f_equal; lia|rewrite skipn_length; lia].
Qed.

(** ** Parsing only looks at the headers *)
Lemma parse_cong : forall d (x y : list byte), zlen x = zlen y ->
  (forall o, 4 <= o -> o + 4 <= header_bytes x -> word y o = word x o) ->
  parse_dds_ignore_magic d y = parse_dds_ignore_magic d x.
Proof.
  intros d x y L W. assert (H8 : 128 <= header_bytes x) by (unfold header_bytes; destruct (has_dx10 x); lia).
  assert (WL : forall o, 4 <= o -> o <= 124 -> word y o = word x o) by (intros; apply W; lia).
  assert (DX : has_dx10 y = has_dx10 x) by (unfold has_dx10; rewrite WL by lia; reflexivity).
  assert (SF : stated_format y = stated_format x).
  { unfold stated_format, pixel_format. rewrite DX. destruct (has_dx10 x) eqn:E; [|rewrite !WL by lia; reflexivity].
    rewrite W by (unfold header_bytes; rewrite ?E; lia). reflexivity. }
  rewrite !parse_ignore_eq. unfold complete_headers, header_bytes, run_length, level_of, mip_count. rewrite SF, DX, <- L, !WL by lia. reflexivity.
Qed.

Lemma parse_facts : forall d x i, parse_dds_ignore_magic d x = Ok (Some i) ->
  complete_headers x = true /\ run_length d x = Ok (i_data_length i) /\ i_data_offset i = header_bytes x /\ i_format i = stated_format x /\
  0 <= i_data_length i < 2 ^ 32 /\ 128 <= i_data_offset i <= 148 /\ i_data_offset i <= zlen x.
Proof.
  intros d x i H. rewrite parse_ignore_eq in H. destruct (complete_headers x) eqn:C; [|discriminate].
  destruct (run_length d x) as [n| |] eqn:R; cbn [bind] in H; try discriminate. injection H as <-. cbn [i_data_length i_data_offset i_format].
  pose proof (run_length_bound _ _ _ R). unfold complete_headers, header_bytes in *. destruct (has_dx10 x); cbn [negb orb] in C; repeat (split; [first [reflexivity|lia]|]); lia.
Qed.
Lemma parse_dds_facts : forall d x i, parse_dds d x = Ok (Some i) -> has_magic x = true /\ parse_dds_ignore_magic d x = Ok (Some i).
Proof.
  intros d x i H. unfold parse_dds in H. destruct (likely_dds x) eqn:E; cbn [negb] in H; [|discriminate].
  rewrite likely_eq in E. split; [destruct (has_magic x); [reflexivity|rewrite Bool.andb_false_r in E; discriminate]|exact H].
Qed.
Lemma parse_other : forall d1 d2 x i, parse_dds_ignore_magic d1 x = Ok (Some i) -> (d2 = true -> d1 = false -> levels_fit x) ->
  parse_dds_ignore_magic d2 x = Ok (Some i).
Proof.
  intros d1 d2 x i H F. rewrite parse_ignore_eq in *. destruct (complete_headers x); [|exact H].
  assert (R : run_length d2 x = run_length d1 x).
  { destruct d1, d2; try reflexivity.
    - destruct (run_length true x) as [n| |] eqn:E; [exact (run_length_mono _ _ E)| |]; cbn [bind] in H; discriminate.
    - rewrite !run_length_chain by (apply F; reflexivity). reflexivity. }
  rewrite R. exact H.
Qed.

Section Handler.
Context {St Er : Type}.
Variable show : Er -> string.
Variables (c : cfg) (v : env).

Lemma transform_pieces : forall (t : bundle St Er) H T R oH oT oR st i,
  parse_dds (c_debug c) (H ++ T ++ R) = Ok (Some i) -> i_data_offset i = zlen H -> i_data_length i = zlen T ->
  zlen H + zlen T <= usize_max v -> zlen oH = zlen H -> zlen oT = zlen T -> zlen R <= zlen oR ->
  dds_transform_bundle show c v t (H ++ T ++ R) (oH ++ oT ++ oR) st =
  match dds_format_to_transform_format (i_format i) false with
  | RErr e => Ok (RErr e, H ++ oT ++ oR, st)
  | ROk f =>
      do r <- dispatch_transform show c v t f T oT st ;;
      match r with
      | (RErr e, target, st) => Ok (RErr e, splice (H ++ oT ++ oR) (zlen H) target, st)
      | (ROk h, target, st) =>
          do output <-
            (if 0 <? zlen R
             then copy_range (splice (H ++ oT ++ oR) (zlen H) target) (zlen H + zlen T) (zlen (splice (H ++ oT ++ oR) (zlen H) target)) R
             else Ok (splice (H ++ oT ++ oR) (zlen H) target)) ;;
          Ok (ROk tt, write_to_ptr h output 0, st)
      end
  end.
Proof.
  intros t H T R oH oT oR st i P HO HL HU LH LT LR. unfold dds_transform_bundle.
  pose proof (zlen_nonneg _ R). pose proof (zlen_nonneg _ oR). pose proof (zlen_nonneg _ H). pose proof (zlen_nonneg _ T).
  rewrite !zlen_app. replace (zlen oH + (zlen oT + zlen oR) <? zlen H + (zlen T + zlen R)) with false by lia.
  rewrite P. cbn [bind]. rewrite HO, HL. unfold usize_add. replace (zlen H + zlen T <=? usize_max v) with true by lia. cbn [bind].
  replace (zlen H + (zlen T + zlen R) <? zlen H + zlen T) with false by lia.
  rewrite (range_head H (T ++ R) (zlen H)) by lia. cbn [bind].
  rewrite (copy_head oH (oT ++ oR) H (zlen H)) by lia. cbn [bind app].
  destruct (dds_format_to_transform_format (i_format i) false) as [f|e]; [|reflexivity].
  rewrite (range_mid H T R) by lia. cbn [bind]. rewrite (range_mid H oT oR) by lia. cbn [bind].
  replace (zlen H + zlen T <? zlen H + (zlen T + zlen R)) with (0 <? zlen R) by lia.
  destruct (dispatch_transform show c v t f T oT st) as [[[[h|e] target] st']| |]; cbn [bind]; try reflexivity.
  destruct (0 <? zlen R); [|reflexivity].
  replace (range (H ++ T ++ R) (zlen H + zlen T) (zlen H + (zlen T + zlen R))) with (Ok R); [reflexivity|].
  rewrite app_assoc. symmetry. apply range_tail; rewrite ?zlen_app; lia.
Qed.

Lemma untransform_pieces : forall M H T R oM oH oT oR i,
  parse_dds_ignore_magic (c_debug c) (M ++ H ++ T ++ R) = Ok (Some i) -> zlen M = 4 -> i_data_offset i = 4 + zlen H -> i_data_length i = zlen T ->
  4 + zlen H + zlen T <= usize_max v -> zlen oM = 4 -> zlen oH = zlen H -> zlen oT = zlen T -> zlen R <= zlen oR ->
  dds_untransform c v (M ++ H ++ T ++ R) (oM ++ oH ++ oT ++ oR) =
  do r <- dispatch_untransform c (word (M ++ H ++ T ++ R) 0) T oT ;;
  let out target := splice (u32_bytes DDS_MAGIC ++ H ++ oT ++ oR) (4 + zlen H) target in
  match r with
  | (RErr e, target) => Ok (RErr e, out target)
  | (ROk _, target) =>
      do output <- (if 0 <? zlen R then copy_range (out target) (4 + zlen H + zlen T) (zlen (out target)) R else Ok (out target)) ;;
      Ok (ROk tt, output)
  end.
Proof.
  intros M H T R oM oH oT oR i P HM HO HL HU LM LH LT LR. unfold dds_untransform.
  pose proof (zlen_nonneg _ R). pose proof (zlen_nonneg _ oR). pose proof (zlen_nonneg _ H). pose proof (zlen_nonneg _ T).
  rewrite !zlen_app. replace (zlen M + (zlen H + (zlen T + zlen R)) <? 4) with false by lia.
  replace (zlen oM + (zlen oH + (zlen oT + zlen oR)) <? zlen M + (zlen H + (zlen T + zlen R))) with false by lia.
  rewrite P. cbn [bind]. rewrite HO, HL. unfold usize_add. replace (4 + zlen H + zlen T <=? usize_max v) with true by lia. cbn [bind].
  replace (zlen M + (zlen H + (zlen T + zlen R)) <? 4 + zlen H + zlen T) with false by lia.
  change (zlen (u32_bytes DDS_MAGIC)) with 4.
  rewrite (copy_head oM (oH ++ oT ++ oR) (u32_bytes DDS_MAGIC) 4) by (try change (zlen (u32_bytes DDS_MAGIC)) with 4; lia).
  cbn [bind].
  rewrite (range_mid M H (T ++ R)) by lia. cbn [bind].
  rewrite (copy_mid (u32_bytes DDS_MAGIC) oH (oT ++ oR) H 4) by (try change (zlen (u32_bytes DDS_MAGIC)) with 4; lia). cbn [bind].
  rewrite (app_assoc M H), (app_assoc (u32_bytes DDS_MAGIC) H).
  rewrite (range_mid (M ++ H) T R) by (rewrite ?zlen_app; lia). cbn [bind].
  rewrite (range_mid (u32_bytes DDS_MAGIC ++ H) oT oR) by (rewrite ?zlen_app; try change (zlen (u32_bytes DDS_MAGIC)) with 4; lia). cbn [bind].
  replace (4 + zlen H + zlen T <? zlen M + (zlen H + (zlen T + zlen R))) with (0 <? zlen R) by lia.
  change (read_from_ptr ((M ++ H) ++ T ++ R) 0) with (word ((M ++ H) ++ T ++ R) 0). 
  destruct (dispatch_untransform c (word ((M ++ H) ++ T ++ R) 0) T oT) as [[[u|e] target]| |]; cbn [bind]; try reflexivity.
  destruct (0 <? zlen R); [|reflexivity].
  replace (range ((M ++ H) ++ T ++ R) (4 + zlen H + zlen T) (zlen M + (zlen H + (zlen T + zlen R)))) with (Ok R); [reflexivity|].
  rewrite app_assoc. symmetry. apply range_tail; rewrite ?zlen_app; lia.
Qed.
End Handler.

(** ** What a successful transform produced *)
Definition codec_dds (k : codec) : dds_format := match k with CBc1 => DBC1 | CBc2 => DBC2 end.
Lemma codec_dds_format : forall f k, dds_format_to_transform_format f false = ROk (codec_format k) -> f = codec_dds k.
Proof. intros [] [] H; try reflexivity; discriminate H. Qed.

Lemma wrap_small : forall v off n, 128 <= off <= 148 -> 0 <= n < 2 ^ 32 -> 2 ^ 32 - 1 <= usize_max v -> usize_max v < off + n ->
  0 <= (off + n) mod (usize_max v + 1) < off.
Proof.
  intros v off n Ho Hn Hu H. assert (E : (off + n) mod (usize_max v + 1) = off + n - (usize_max v + 1)); [|lia].
  symmetry. apply Z.mod_unique with (q := 1); lia.
Qed.

Lemma transform_sizes : forall {St Er} (show : Er -> string) c v (t : bundle St Er) x out st y st' i,
  parse_dds (c_debug c) x = Ok (Some i) -> 2 ^ 32 - 1 <= usize_max v ->
  dds_transform_bundle show c v t x out st = Ok (ROk tt, y, st') ->
  zlen x <= zlen out /\ i_data_offset i + i_data_length i <= zlen x /\ i_data_offset i + i_data_length i <= usize_max v.
Proof.
  intros St Er show c v t x out st y st' i P HU H. destruct (parse_dds_facts _ _ _ P) as (_ & P').
  destruct (parse_facts _ _ _ P') as (_ & _ & _ & _ & Hn & Ho & Hx). unfold dds_transform_bundle in H.
  destruct (zlen out <? zlen x) eqn:Z; [discriminate|]. rewrite P in H. cbn [bind] in H. unfold usize_add in H.
  destruct (i_data_offset i + i_data_length i <=? usize_max v) eqn:U.
  - cbn [bind] in H. destruct (zlen x <? i_data_offset i + i_data_length i) eqn:L; [discriminate|]. lia.
  - exfalso. destruct (c_debug c); [discriminate|]. cbn [bind] in H.
    pose proof (wrap_small v _ _ Ho Hn HU ltac:(lia)) as WS. set (w := (i_data_offset i + i_data_length i) mod (usize_max v + 1)) in *.
    destruct (zlen x <? w); [discriminate|].
    destruct (range x 0 (i_data_offset i)) as [h| |]; cbn [bind] in H; try discriminate.
    destruct (copy_range out 0 (i_data_offset i) h) as [o| |]; cbn [bind] in H; try discriminate.
    destruct (dds_format_to_transform_format (i_format i) false); try discriminate.
    unfold range in H. replace ((0 <=? i_data_offset i) && (i_data_offset i <=? w) && (w <=? zlen x)) with false in H by lia. discriminate.
Qed.

Lemma zlen_eq : forall (a b : list byte), zlen a = zlen b -> List.length a = List.length b.
Proof. intros. unfold zlen in *. lia. Qed.

Lemma transform_success : forall {St Er} (show : Er -> string) c v (t : bundle St Er) x out st y st' i,
  supported c -> parse_dds (c_debug c) x = Ok (Some i) -> (c_debug c = true -> 0 < i_data_length i) -> 2 ^ 32 - 1 <= usize_max v ->
  dds_transform_bundle show c v t x out st = Ok (ROk tt, y, st') ->
  let off := i_data_offset i in let n := i_data_length i in
  exists k s, i_format i = codec_dds k /\
    dispatch_transform show c v t (codec_format k) (slice x off n) (slice out off n) st = Ok (ROk (codec_header k s), texture_layout k s (slice x off n), st') /\
    n mod codec_block k = 0 /\ off + n <= zlen x /\ zlen x <= zlen out /\
    (off + n < zlen x -> zlen out = zlen x) /\
    y = u32_bytes (codec_header k s) ++ slice x 4 (off - 4) ++ texture_layout k s (slice x off n) ++ slice x (off + n) (zlen x - (off + n)) ++ skipn (List.length x) out.
Proof.
  intros St Er show c v t x out st y st' i K P HD HU E off n.
  destruct (transform_sizes _ _ _ _ _ _ _ _ _ _ P HU E) as (Hout & Hlen & Hmax). fold off n in Hlen, Hmax.
  destruct (parse_facts _ _ _ (proj2 (parse_dds_facts _ _ _ P))) as (_ & _ & _ & _ & Hn & Ho & Hx). fold off n in Hn, Ho, Hx.
  set (H := slice x 0 off). set (T := slice x off n). set (R := slice x (off + n) (zlen x - (off + n))).
  set (oH := slice out 0 off). set (oT := slice out off n). set (oR := slice out (off + n) (zlen out - (off + n))).
  assert (X : x = H ++ T ++ R) by (apply cut3; lia). assert (O : out = oH ++ oT ++ oR) by (apply cut3; lia).
  assert (LH : zlen H = off) by (apply zlen_slice; lia). assert (LT : zlen T = n) by (apply zlen_slice; lia). assert (LR : zlen R = zlen x - (off + n)) by (apply zlen_slice; lia).
  assert (LoH : zlen oH = off) by (apply zlen_slice; lia). assert (LoT : zlen oT = n) by (apply zlen_slice; lia). assert (LoR : zlen oR = zlen out - (off + n)) by (apply zlen_slice; lia).
  rewrite X in E at 1. rewrite O in E at 1. rewrite X in P.
  rewrite (transform_pieces show c v t H T R oH oT oR st i P) in E by (fold off n; lia).
  destruct (dds_format_to_transform_format (i_format i) false) as [f|e] eqn:F; [|discriminate].
  destruct (dispatch_transform show c v t f T oT st) as [[[[h|e] target] st1]| |] eqn:D; cbn [bind] in E; try discriminate.
  destruct (dispatch_ok _ _ _ _ _ _ _ _ _ _ _ K ltac:(intros Q; specialize (HD Q); fold n in HD; intros TN; rewrite TN, zlen_nil in LT; lia) D) as (k & s & -> & -> & Hm & _ & Y).
  rewrite LT in Hm. exists k, s. split; [apply codec_dds_format; exact F|].
  rewrite skipn_all2 in Y by (apply Nat.eq_le_incl, zlen_eq; lia). rewrite app_nil_r in Y. subst target.
  match goal with |- ?a /\ ?b => cut (b /\ st1 = st'); [intros (Q1 & Q2); split; [fold T oT; rewrite D, Q2; reflexivity|exact Q1]|] end.
  rewrite !and_assoc. split; [exact Hm|]. split; [exact Hlen|]. split; [exact Hout|].
  assert (LL : zlen (texture_layout k s T) = n) by (unfold zlen; rewrite layout_len by (rewrite LT; exact Hm); exact LT).
  rewrite (splice_mid H oT oR (texture_layout k s T)) in E by (try apply zlen_eq; lia). set (L := texture_layout k s T) in *.
  assert (SH : H = slice x 0 4 ++ slice x 4 (off - 4)).
  { unfold H. replace off with (4 + (off - 4)) at 1 by lia. rewrite slice_app_split by lia. reflexivity. }
  assert (WR : forall tl, write_to_ptr (codec_header k s) (H ++ tl) 0 = u32_bytes (codec_header k s) ++ slice x 4 (off - 4) ++ tl).
  { intros tl. rewrite SH, <- app_assoc. unfold write_to_ptr. apply (splice_mid [] (slice x 0 4)); [reflexivity|].
    apply zlen_eq. change (zlen (u32_bytes (codec_header k s))) with 4. apply zlen_slice; lia. }
  assert (SR : oR = slice out (off + n) (zlen R) ++ skipn (List.length x) out).
  { unfold oR. replace (zlen out - (off + n)) with (zlen R + (zlen out - zlen x)) by lia. rewrite slice_app_split by lia. f_equal.
    unfold slice. rewrite LR. unfold zlen in *. rewrite firstn_all2 by (rewrite skipn_length; lia). f_equal. lia. }
  destruct (0 <? zlen R) eqn:Z.
  - assert (Q : zlen out = zlen x).
    { destruct (Z.eq_dec (zlen out) (zlen x)) as [Q|Q]; [exact Q|]. exfalso. unfold copy_range in E.
      rewrite app_assoc in E. rewrite range_tail in E by (rewrite ?zlen_app; lia). cbn [bind] in E.
      replace (zlen oR =? zlen R) with false in E by lia. discriminate. }
    rewrite app_assoc, copy_tail in E by (rewrite ?zlen_app; lia). cbn [bind] in E. injection E as <- <-.
    split; [intros; exact Q|]. split; [|reflexivity]. rewrite <- app_assoc, WR. unfold zlen in Q. rewrite skipn_all2 by lia. rewrite app_nil_r. reflexivity.
  - cbn [bind] in E. injection E as <- <-. split; [lia|]. split; [|reflexivity]. rewrite WR. do 3 f_equal. rewrite SR.
    replace (zlen R) with 0 by (pose proof (zlen_nonneg _ R); lia).
    unfold slice at 1. cbn [Z.to_nat firstn app]. destruct R; [reflexivity|]. rewrite zlen_cons in Z. pose proof (zlen_nonneg _ R). lia.
Qed.

(** ** Round trip *)
Lemma bytes_of_word : forall (x : list byte) n, 4 <= zlen x -> word x 0 = n -> slice x 0 4 = u32_bytes n.
Proof.
  intros x n H W. destruct x as [|a [|b [|d [|e l]]]]; try (unfold zlen in H; cbn [List.length] in H; lia).
  change (slice (a :: b :: d :: e :: l) 0 4) with [a; b; d; e]. change (word (a :: b :: d :: e :: l) 0) with (u32le a b d e) in W. subst n.
  unfold u32_bytes, u32le. pose proof (b2z_bound a). pose proof (b2z_bound b). pose proof (b2z_bound d). pose proof (b2z_bound e).
  f_equal; [|f_equal; [|f_equal; [|f_equal]]]; apply b2z_inj; rewrite b2z_z2b; lia.
Qed.

Lemma codec_header_bound : forall k s, 0 <= codec_header k s < 2 ^ 32.
Proof. intros [] s; [exact (details_bound (DBc1 s))|exact (details_bound (DBc2 s))]. Qed.

Lemma app4_length : forall (a b d e : list byte) n, zlen a + (zlen b + (zlen d + zlen e)) = Z.of_nat n -> forall f, firstn n (a ++ b ++ d ++ e ++ f) = a ++ b ++ d ++ e.
Proof.
  intros a b d e n H f. replace (a ++ b ++ d ++ e ++ f) with ((a ++ b ++ d ++ e) ++ f) by (rewrite <- !app_assoc; reflexivity).
  assert (L : n = List.length (a ++ b ++ d ++ e)) by (unfold zlen in H; rewrite !app_length; lia).
  subst n. rewrite firstn_app, firstn_all, Nat.sub_diag. apply app_nil_r.
Qed.

Lemma dds_round_trip : forall (St Er : Type) (show : Er -> string) (c1 c2 : cfg) (v1 v2 : env) (t : bundle St Er)
    (x out out2 : list byte) (st st' : St) (y : list byte) (i : dds_info),
  supported c1 -> supported c2 -> parse_dds (c_debug c1) x = Ok (Some i) ->
  (c_debug c1 = true \/ c_debug c2 = true -> 0 < i_data_length i) -> (c_debug c2 = true -> c_debug c1 = false -> levels_fit x) ->
  2 ^ 32 - 1 <= usize_max v1 -> zlen x <= usize_max v2 ->
  dds_transform_bundle show c1 v1 t x out st = Ok (ROk tt, y, st') ->
  zlen x <= zlen out2 -> (i_data_offset i + i_data_length i < zlen x -> zlen out2 = zlen x) ->
  dds_untransform c2 v2 (firstn (List.length x) y) out2 = Ok (ROk tt, x ++ skipn (List.length x) out2).
Proof.
  intros St Er show c1 c2 v1 v2 t x out out2 st st' y i K1 K2 P HD HF HU1 HU2 E Hout2 Htrail.
  destruct (transform_success show c1 v1 t x out st y st' i K1 P ltac:(auto) HU1 E) as (k & s & FM & _ & Hm & Hlen & Hout & _ & Y).
  destruct (parse_dds_facts _ _ _ P) as (HM & P').
  destruct (parse_facts _ _ _ P') as (_ & _ & HB & _ & Hn & Ho & Hx).
  set (off := i_data_offset i) in *. set (n := i_data_length i) in *.
  set (H := slice x 4 (off - 4)) in *. set (T := slice x off n) in *. set (R := slice x (off + n) (zlen x - (off + n))) in *.
  set (oM := slice out2 0 4). set (oH := slice out2 4 (off - 4)). set (oT := slice out2 off n). set (oR := slice out2 (off + n) (zlen out2 - (off + n))).
  assert (LM : zlen (slice x 0 4) = 4) by (apply zlen_slice; lia).
  assert (LH : zlen H = off - 4) by (apply zlen_slice; lia). assert (LT : zlen T = n) by (apply zlen_slice; lia). assert (LR : zlen R = zlen x - (off + n)) by (apply zlen_slice; lia).
  assert (LoM : zlen oM = 4) by (apply zlen_slice; lia).
  assert (LoH : zlen oH = off - 4) by (apply zlen_slice; lia). assert (LoT : zlen oT = n) by (apply zlen_slice; lia). assert (LoR : zlen oR = zlen out2 - (off + n)) by (apply zlen_slice; lia).
  assert (CUT : forall l : list byte, off + n <= zlen l -> l = slice l 0 4 ++ slice l 4 (off - 4) ++ slice l off n ++ slice l (off + n) (zlen l - (off + n))).
  { intros l Hl. rewrite (cut3 l off n) at 1 by lia. assert (Q : slice l 0 off = slice l 0 4 ++ slice l 4 (off - 4)).
    { replace off with (4 + (off - 4)) at 1 by lia. rewrite slice_app_split by lia. reflexivity. }
    rewrite Q, <- app_assoc. reflexivity. }
  assert (X : x = slice x 0 4 ++ H ++ T ++ R) by (apply CUT; lia). assert (O : out2 = oM ++ oH ++ oT ++ oR) by (apply CUT; lia).
  assert (MG : slice x 0 4 = u32_bytes DDS_MAGIC) by (apply bytes_of_word; [lia|unfold has_magic in HM; apply Z.eqb_eq in HM; exact HM]).
  set (h := u32_bytes (codec_header k s)) in *. assert (Lh : zlen h = 4) by reflexivity.
  set (L := texture_layout k s T) in *.
  assert (LL : zlen L = n) by (unfold L, zlen; rewrite layout_len by (rewrite LT; exact Hm); exact LT).
  assert (YF : firstn (List.length x) y = h ++ H ++ L ++ R) by (rewrite Y; apply app4_length; change (Z.of_nat (List.length x)) with (zlen x); lia).
  rewrite YF. rewrite O at 1.
  assert (P2 : parse_dds_ignore_magic (c_debug c2) (h ++ H ++ L ++ R) = Ok (Some i)).
  { rewrite (parse_cong (c_debug c2) x).
    - exact (parse_other _ _ _ _ P' HF).
    - rewrite X at 1. rewrite !zlen_app. lia.
    - intros o H1 H2. rewrite X at 1. apply word_mid; [apply zlen_eq; lia|lia|lia]. }
  rewrite (untransform_pieces c2 v2 h H L R oM oH oT oR i P2) by (unfold off, n in *; lia).
  replace (word (h ++ H ++ L ++ R) 0) with (codec_header k s) by (symmetry; apply word_head, codec_header_bound). rewrite LL. unfold L. rewrite round_layout; [|exact K2| |rewrite LT; exact Hm|lia].
  2:{ intros D TN. rewrite TN, zlen_nil in LT. specialize (HD (or_intror D)). lia. }
  cbn [bind]. cbv zeta. rewrite skipn_all2 by (apply Nat.eq_le_incl, zlen_eq; lia). rewrite app_nil_r.
  rewrite app_assoc. rewrite splice_mid; [|rewrite zlen_app; change (zlen (u32_bytes DDS_MAGIC)) with 4; lia|apply zlen_eq; lia].
  rewrite <- MG. assert (G : (slice x 0 4 ++ H) ++ T ++ R = x) by (symmetry; rewrite <- app_assoc; exact X).
  assert (SR : oR = slice out2 (off + n) (zlen R) ++ skipn (List.length x) out2).
  { unfold oR. replace (zlen out2 - (off + n)) with (zlen R + (zlen out2 - zlen x)) by lia. rewrite slice_app_split by lia. f_equal.
    unfold slice. rewrite LR. unfold zlen in *. rewrite firstn_all2 by (rewrite skipn_length; lia). f_equal. lia. }
  destruct (0 <? zlen R) eqn:Z.
  - specialize (Htrail ltac:(lia)). rewrite app_assoc. rewrite copy_tail by (rewrite ?zlen_app; lia). cbn [bind].
    rewrite skipn_all2 by (apply Nat.eq_le_incl, zlen_eq; lia). rewrite app_nil_r. rewrite <- app_assoc, G. reflexivity.
  - cbn [bind]. rewrite SR. assert (RN : R = []) by (destruct R; [reflexivity|rewrite zlen_cons in Z; pose proof (zlen_nonneg _ R); lia]).
    rewrite RN. change (zlen (@nil byte)) with 0. rewrite RN, app_nil_r in G. rewrite <- G at 3. rewrite <- !app_assoc. reflexivity.
Qed.

(** ** Untransformed and transformed files *)
Lemma codec_header_not_magic : forall k s, codec_header k s <> four "DDS ".
Proof. intros [] [[] []]; vm_compute; discriminate. Qed.

Lemma transformed_word : forall {St Er} (show : Er -> string) c v (t : bundle St Er) x out st y st' i,
  supported c -> parse_dds (c_debug c) x = Ok (Some i) -> (c_debug c = true -> 0 < i_data_length i) -> 2 ^ 32 - 1 <= usize_max v ->
  dds_transform_bundle show c v t x out st = Ok (ROk tt, y, st') -> exists k s, word y 0 = codec_header k s.
Proof.
  intros St Er show c v t x out st y st' i K P HD HU E.
  destruct (transform_success show c v t x out st y st' i K P HD HU E) as (k & s & _ & _ & _ & _ & _ & _ & ->).
  exists k, s. apply word_head, codec_header_bound.
Qed.

Lemma transform_parses : forall {St Er} (show : Er -> string) c v (t : bundle St Er) x out st y st',
  dds_transform_bundle show c v t x out st = Ok (ROk tt, y, st') -> exists i, parse_dds (c_debug c) x = Ok (Some i).
Proof.
  intros St Er show c v t x out st y st' E. unfold dds_transform_bundle in E. destruct (zlen out <? zlen x); [discriminate|].
  destruct (parse_dds (c_debug c) x) as [[i|]| |]; cbn [bind] in E; try discriminate. exists i. reflexivity.
Qed.

Lemma not_handled : forall (St Er : Type) (show : Er -> string) (c : cfg) (v : env) (t : bundle St Er) (x out : list byte) (st st' : St) (y : list byte) (i : dds_info),
  supported c -> parse_dds (c_debug c) x = Ok (Some i) -> (c_debug c = true -> 0 < i_data_length i) -> 2 ^ 32 - 1 <= usize_max v ->
  dds_transform_bundle show c v t x out st = Ok (ROk tt, y, st') ->
  forall (debug : bool) (ext : option string), dds_can_handle debug y ext = Ok false.
Proof.
  intros St Er show c v t x out st st' y i K P HD HU E debug ext.
  destruct (transformed_word show c v t x out st y st' i K P HD HU E) as (k & s & W).
  assert (N : parse_dds debug y = Ok None).
  { rewrite parse_eq. unfold has_magic. rewrite W. replace (codec_header k s =? four "DDS ") with false; [reflexivity|].
    symmetry. apply Z.eqb_neq, codec_header_not_magic. }
  unfold dds_can_handle. rewrite N. destruct ext; [destruct (negb _)|]; reflexivity.
Qed.

Lemma undispatch_magic : forall c y out, zlen y <= zlen out -> dispatch_untransform c DDS_MAGIC y out = Ok (RErr UnknownTransformFormat, out).
Proof. intros c y out H. unfold dispatch_untransform. replace (zlen out <? zlen y) with false by lia. reflexivity. Qed.

Lemma undispatch_magic_fails : forall c y out o u, dispatch_untransform c DDS_MAGIC y out <> Ok (ROk u, o).
Proof. intros c y out o u. unfold dispatch_untransform. destruct (zlen out <? zlen y); cbn [header_format]; discriminate. Qed.

Lemma plain_not_untransformed : forall (c : cfg) (v : env) (x out o : list byte), has_magic x = true -> dds_untransform c v x out <> Ok (ROk tt, o).
Proof.
  intros c v x out o M E. unfold dds_untransform in E.
  destruct (zlen x <? 4); [discriminate|]. destruct (zlen out <? zlen x); [discriminate|].
  change (read_from_ptr x 0) with (word x 0) in E. unfold has_magic in M. apply Z.eqb_eq in M. rewrite M in E. change (four "DDS ") with DDS_MAGIC in E.
  repeat match goal with
  | E : (do _ <- ?e ;; _) = _ |- _ => lazymatch e with dispatch_untransform _ _ _ _ => fail | _ => destruct e; cbn [bind] in E; try discriminate end
  | E : match ?a with Some _ => _ | None => _ end = _ |- _ => destruct a; try discriminate
  | E : (if ?a then Ok (RErr _, _) else _) = _ |- _ => destruct a; try discriminate
  end.
  pose proof (undispatch_magic_fails c) as N.
  match type of E with (do _ <- dispatch_untransform c DDS_MAGIC ?a ?b ;; _) = _ =>
    specialize (N a b); destruct (dispatch_untransform c DDS_MAGIC a b) as [[[u|e] tg]| |]; cbn [bind] in E; try discriminate; exact (N tg u eq_refl) end.
Qed.

(** ** Totality *)
Lemma undispatch_total : forall c h y out, supported c -> (c_debug c = true -> y <> []) -> zlen y <= zlen out ->
  exists r o, dispatch_untransform c h y out = Ok (r, o) /\ zlen o = zlen out.
Proof.
  intros c h y out K HD H. unfold dispatch_untransform. replace (zlen out <? zlen y) with false by lia.
  assert (G : forall k (e : embeddable settings), exists r o,
    (match from_header e h with
      | RErr e1 => Ok (RErr (EEmbed e1), out)
      | ROk details =>
          if negb (zlen y mod codec_block k =? 0) then Ok (RErr (InvalidDataAlignment (zlen y) (codec_block k)), out)
          else
            do m <- core_untransform_ptr k c (Ptr BIn 0) (Ptr BOut 0) (zlen y) details (Mem y [] out) ;;
            Ok (ROk tt, m_out m)
      end) = Ok (r, o) /\ zlen o = zlen out).
  { intros k e. destruct (from_header e h) as [s|e1]; [|do 2 eexists; split; reflexivity].
    destruct (negb (zlen y mod codec_block k =? 0)) eqn:Z; [do 2 eexists; split; reflexivity|].
    destruct (core_untransform_ok k c s y out K HD ltac:(lia) H) as (x & E & _ & L & _). rewrite E. cbn [bind m_out].
    do 2 eexists. split; [reflexivity|]. unfold zlen in *. rewrite app_length, skipn_length. lia. }
  destruct (header_format h) as [f|]; [|do 2 eexists; split; reflexivity].
  destruct f; try (do 2 eexists; split; reflexivity); apply G.
Qed.

(** The pieces of a file and of a large enough output. *)
Lemma pieces4 : forall (x : list byte) off n, 4 <= off -> 0 <= n -> off + n <= zlen x -> exists M H T R, x = M ++ H ++ T ++ R /\
  zlen M = 4 /\ zlen H = off - 4 /\ zlen T = n /\ zlen R = zlen x - (off + n) /\ T = slice x off n.
Proof.
  intros x off n Ho Hn H. exists (slice x 0 4), (slice x 4 (off - 4)), (slice x off n), (slice x (off + n) (zlen x - (off + n))).
  split; [|repeat apply conj; try reflexivity; apply zlen_slice; lia].
  rewrite (cut3 x off n) at 1 by lia. assert (Q : slice x 0 off = slice x 0 4 ++ slice x 4 (off - 4)).
  { replace off with (4 + (off - 4)) at 1 by lia. rewrite slice_app_split by lia. reflexivity. }
  rewrite Q, <- app_assoc. reflexivity.
Qed.

Lemma splice_zlen : forall (a b d : list byte) off, zlen a = off -> zlen b >= zlen d -> zlen (splice (a ++ b) off d) = zlen a + zlen b.
Proof. intros. rewrite zlen_splice; rewrite ?zlen_app; pose proof (zlen_nonneg _ a); lia. Qed.

Lemma untransform_total : forall (c : cfg) (v : env) (x out : list byte),
  supported c -> 2 ^ 32 + 147 <= usize_max v ->
  (c_debug c = true -> levels_fit x /\ forall i, parse_dds_ignore_magic true x = Ok (Some i) -> 0 < i_data_length i) ->
  (forall i, parse_dds_ignore_magic (c_debug c) x = Ok (Some i) -> i_data_offset i + i_data_length i < zlen x -> zlen out <= zlen x) ->
  exists r o, dds_untransform c v x out = Ok (r, o) /\ zlen o = zlen out.
Proof.
  intros c v x out K HU HD HT.
  assert (PP : exists p, parse_dds_ignore_magic (c_debug c) x = Ok p).
  { rewrite parse_ignore_eq. destruct (complete_headers x); [|eexists; reflexivity]. destruct (c_debug c).
    - rewrite run_length_chain by (apply HD; reflexivity). eexists; reflexivity.
    - destruct (run_length_release x) as (n & -> & _). eexists; reflexivity. }
  destruct PP as (p & P).
  destruct (zlen x <? 4) eqn:Z4; [do 2 eexists; split; [unfold dds_untransform; rewrite Z4; reflexivity|reflexivity]|].
  destruct (zlen out <? zlen x) eqn:ZO; [do 2 eexists; split; [unfold dds_untransform; rewrite Z4, ZO; reflexivity|reflexivity]|].
  destruct p as [i|]; [|do 2 eexists; split; [unfold dds_untransform; rewrite Z4, ZO, P; reflexivity|reflexivity]].
  destruct (parse_facts _ _ _ P) as (_ & _ & _ & _ & Hn & Ho & Hx). set (off := i_data_offset i) in *. set (n := i_data_length i) in *.
  destruct (Z_lt_le_dec (zlen x) (off + n)) as [Lt|Le].
  - unfold dds_untransform. rewrite Z4, ZO, P. cbn [bind]. unfold usize_add. fold off n. replace (off + n <=? usize_max v) with true by lia. cbn [bind].
    replace (zlen x <? off + n) with true by lia. do 2 eexists; split; reflexivity.
  - specialize (HT i P). fold off n in HT.
    destruct (pieces4 x off n ltac:(lia) ltac:(lia) Le) as (M & H & T & R & X & LM & LH & LT & LR & _).
    destruct (pieces4 out off n ltac:(lia) ltac:(lia) ltac:(lia)) as (oM & oH & oT & oR & O & LoM & LoH & LoT & LoR & _).
    rewrite X in P. rewrite X, O. rewrite (untransform_pieces c v M H T R oM oH oT oR i P) by (fold off n; lia).
    destruct (undispatch_total c (word (M ++ H ++ T ++ R) 0) T oT K) as (r & tg & E & Ltg).
    { intros D TN. destruct (HD D) as (_ & HP). rewrite D, <- X in P. specialize (HP i P). rewrite TN, zlen_nil in LT. fold n in HP. lia. }
    { lia. }
    rewrite E. cbn [bind]. cbv zeta. rewrite app_assoc.
    rewrite splice_mid by (try apply zlen_eq; rewrite ?zlen_app; try change (zlen (u32_bytes DDS_MAGIC)) with 4; lia).
    assert (LZ : zlen ((u32_bytes DDS_MAGIC ++ H) ++ tg ++ oR) = zlen (oM ++ oH ++ oT ++ oR)) by (rewrite !zlen_app; change (zlen (u32_bytes DDS_MAGIC)) with 4; lia).
    destruct r as [u|e]; [|do 2 eexists; split; [reflexivity|exact LZ]].
    destruct (0 <? zlen R) eqn:ZR; [|do 2 eexists; split; [reflexivity|exact LZ]].
    rewrite app_assoc, copy_tail by (rewrite ?zlen_app; change (zlen (u32_bytes DDS_MAGIC)) with 4; lia). cbn [bind].
    do 2 eexists. split; [reflexivity|]. rewrite !zlen_app in *. lia.
Qed.

Lemma dispatch_total : forall {St Er} (show : Er -> string) c v (t : bundle St Er) f x out st, supported c -> (c_debug c = true -> x <> []) ->
  zlen x <= zlen out ->
  exists r y st', dispatch_transform show c v t f x out st = Ok (r, y, st') /\ forall a b, r <> RErr (EFormatHandler (FhOutputBufferTooSmall a b)).
Proof.
  intros St Er show c v t f x out st K HD H. unfold dispatch_transform. replace (zlen out <? zlen x) with false by lia.
  assert (TR : forall k s, exists r y, core_transform k c s x out = Ok (r, y)).
  { intros k s. destruct (zlen x mod codec_block k =? 0) eqn:Z.
    - rewrite core_transform_ok by (auto; lia). do 2 eexists. reflexivity.
    - destruct k; cbn [core_transform codec_block] in *; [unfold transform_bc1|unfold transform_bc2]; unfold checked; rewrite Z; do 2 eexists; reflexivity. }
  assert (AU : forall k (e : estimator St Er) all, exists r y st', core_auto k c v e all x out st = Ok (r, y, st')).
  { intros k e all. destruct (zlen x mod codec_block k =? 0) eqn:Z.
    - destruct K as (K & VL). destruct k; cbn [core_auto codec_block] in *.
      + destruct (lC19_bc1_estimator_errors St Er c v e all x out st K HD ltac:(lia) H) as (r & y & st' & _ & E & _). rewrite E. do 3 eexists. reflexivity.
      + destruct (lC19_bc2_estimator_errors St Er c v e all x out st K VL ltac:(lia) H) as (r & y & st' & _ & E & _). rewrite E. do 3 eexists. reflexivity.
    - destruct k; cbn [core_auto codec_block] in *; [unfold transform_bc1_auto|unfold transform_bc2_auto]; unfold auto_checked; rewrite Z; do 3 eexists; reflexivity. }
  assert (SL : forall k b, exists r y st', transform_slice_with_details show k c v b x out st = Ok (r, y, st') /\
      forall a b, r <> RErr (EFormatHandler (FhOutputBufferTooSmall a b))).
  { intros k [b|b]; cbn [transform_slice_with_details].
    - unfold manual_transform. destruct (TR k (mb_settings b)) as (r & y & ->). cbn [bind fst snd].
      destruct (map_err from_validation_error r); do 3 eexists; (split; [reflexivity|]); intros; [discriminate|destruct k; discriminate].
    - unfold auto_transform. destruct (AU k (ab_estimator b) (ab_use_all b)) as (r & y & st' & ->). cbn [bind].
      destruct r; cbn [bind]; do 3 eexists; (split; [reflexivity|]); intros; [discriminate|destruct k; discriminate]. }
  assert (G : forall k b (e : embeddable settings), exists r y st',
     match b with
      | None => Ok (RErr (EFormatHandler (NoBuilderForFormat f)), out, st)
      | Some b =>
          do r <- transform_slice_with_details show k c v b x out st ;;
          match r with
          | (RErr e1, out, st1) => Ok (RErr e1, out, st1)
          | (ROk details, out, st1) => Ok (ROk (to_header e details), out, st1)
          end
      end = Ok (r, y, st') /\ forall a b, r <> RErr (EFormatHandler (FhOutputBufferTooSmall a b))).
  { intros k [b|] e; [|do 3 eexists; split; [reflexivity|discriminate]].
    destruct (SL k b) as (r & y & st' & -> & N). cbn [bind]. destruct r as [s|e1]; do 3 eexists; (split; [reflexivity|]); [discriminate|].
    intros p q Q. injection Q as ->. exact (N p q eq_refl). }
  destruct f; try apply G; do 3 eexists; (split; [reflexivity|discriminate]).
Qed.

Lemma pieces3 : forall (x : list byte) off n, 0 <= off -> 0 <= n -> off + n <= zlen x -> exists H T R, x = H ++ T ++ R /\
  zlen H = off /\ zlen T = n /\ zlen R = zlen x - (off + n) /\ T = slice x off n.
Proof.
  intros x off n Ho Hn H. exists (slice x 0 off), (slice x off n), (slice x (off + n) (zlen x - (off + n))).
  split; [apply cut3; lia|]. repeat apply conj; try reflexivity; apply zlen_slice; lia.
Qed.

Lemma transform_total : forall (St Er : Type) (show : Er -> string) (c : cfg) (v : env) (t : bundle St Er) (x out : list byte) (st : St),
  supported c -> 2 ^ 32 + 147 <= usize_max v ->
  (c_debug c = true -> levels_fit x /\ forall i, parse_dds true x = Ok (Some i) -> 0 < i_data_length i) ->
  zlen x <= zlen out ->
  (forall i, parse_dds (c_debug c) x = Ok (Some i) -> i_data_offset i + i_data_length i < zlen x -> zlen out = zlen x) ->
  exists r y st', dds_transform_bundle show c v t x out st = Ok (r, y, st') /\ forall a b, r <> RErr (EFormatHandler (FhOutputBufferTooSmall a b)).
Proof.
  intros St Er show c v t x out st K HU HD HO HT.
  assert (PP : exists p, parse_dds (c_debug c) x = Ok p).
  { rewrite parse_eq. destruct (has_magic x && complete_headers x); [|eexists; reflexivity]. destruct (c_debug c).
    - rewrite run_length_chain by (apply HD; reflexivity). eexists; reflexivity.
    - destruct (run_length_release x) as (n & -> & _). eexists; reflexivity. }
  destruct PP as (p & P). assert (ZO : (zlen out <? zlen x) = false) by lia.
  destruct p as [i|]; [|do 3 eexists; split; [unfold dds_transform_bundle; rewrite ZO, P; reflexivity|discriminate]].
  destruct (parse_facts _ _ _ (proj2 (parse_dds_facts _ _ _ P))) as (_ & _ & _ & _ & Hn & Ho & Hx). set (off := i_data_offset i) in *. set (n := i_data_length i) in *.
  destruct (Z_lt_le_dec (zlen x) (off + n)) as [Lt|Le].
  - unfold dds_transform_bundle. rewrite ZO, P. cbn [bind]. unfold usize_add. fold off n. replace (off + n <=? usize_max v) with true by lia. cbn [bind].
    replace (zlen x <? off + n) with true by lia. do 3 eexists; split; [reflexivity|discriminate].
  - specialize (HT i P). fold off n in HT.
    destruct (pieces3 x off n ltac:(lia) ltac:(lia) Le) as (H & T & R & X & LH & LT & LR & _).
    destruct (pieces3 out off n ltac:(lia) ltac:(lia) ltac:(lia)) as (oH & oT & oR & O & LoH & LoT & LoR & _).
    rewrite X in P. rewrite X, O. rewrite (transform_pieces show c v t H T R oH oT oR st i P) by (fold off n; lia).
    destruct (dds_format_to_transform_format (i_format i) false) as [f|e] eqn:F; [|do 3 eexists; split; [reflexivity|]].
    2:{ intros a b Q. injection Q as ->. destruct (i_format i); discriminate F. }
    assert (HN : c_debug c = true -> T <> []).
    { intros D TN. destruct (HD D) as (_ & HP). rewrite D, <- X in P. specialize (HP i P). rewrite TN, zlen_nil in LT. fold n in HP. lia. }
    destruct (dispatch_total show c v t f T oT st K HN ltac:(lia)) as (r & tg & st' & E & N).
    rewrite E. cbn [bind].
    destruct r as [h|e]; [|do 3 eexists; split; [reflexivity|intros a b Q; injection Q as ->; exact (N a b eq_refl)]].
    destruct (dispatch_ok _ _ _ _ _ _ _ _ _ _ _ K HN E) as (k & s & _ & _ & Hm & _ & ->).
    rewrite skipn_all2 by (apply Nat.eq_le_incl, zlen_eq; lia). rewrite app_nil_r. set (L := texture_layout k s T).
    assert (LL : zlen L = n) by (unfold L, zlen; rewrite layout_len by exact Hm; exact LT).
    rewrite splice_mid by (try apply zlen_eq; rewrite ?zlen_app; lia).
    destruct (0 <? zlen R) eqn:ZR; [|do 3 eexists; split; [reflexivity|discriminate]].
    rewrite app_assoc, copy_tail by (rewrite ?zlen_app; lia). cbn [bind]. do 3 eexists; split; [reflexivity|discriminate].
Qed.

(** ** No undefined behaviour *)
Lemma bind_no_ub : forall A B (e : res A) (k : A -> res B), (forall why, e <> Ub why) -> (forall a, e = Ok a -> forall why, k a <> Ub why) ->
  forall why, bind e k <> Ub why.
Proof. intros A B [a|y|y] k H1 H2 why; cbn [bind]; [apply H2; reflexivity|discriminate|exfalso; exact (H1 y eq_refl)]. Qed.
Lemma usize_add_no_ub : forall d v a b why, usize_add d v a b <> Ub why.
Proof. intros [] v a b why; unfold usize_add; destruct (_ <=? _); discriminate. Qed.
Lemma range_no_ub : forall l a b why, range l a b <> Ub why.
Proof. intros l a b why; unfold range; destruct (_ && _); discriminate. Qed.
Lemma copy_no_ub : forall l a b s why, copy_range l a b s <> Ub why.
Proof. intros l a b s why. unfold copy_range. apply bind_no_ub; [apply range_no_ub|]. intros o _ w. destruct (_ =? _); discriminate. Qed.
Lemma range_facts : forall l a b s, range l a b = Ok s -> zlen s = b - a /\ 0 <= a <= b /\ b <= zlen l /\ s = slice l a (b - a).
Proof.
  intros l a b s H. unfold range in H. destruct ((0 <=? a) && (a <=? b) && (b <=? zlen l)) eqn:E; [|discriminate]. injection H as <-.
  split; [apply zlen_slice; lia|]. split; [lia|]. split; [lia|reflexivity].
Qed.
Lemma parse_ignore_no_ub : forall d x why, parse_dds_ignore_magic d x <> Ub why.
Proof.
  intros d x why. rewrite parse_ignore_eq. destruct (complete_headers x); [|discriminate]. apply bind_no_ub; [apply run_length_no_ub|]. discriminate.
Qed.
Lemma parse_no_ub : forall d x why, parse_dds d x <> Ub why.
Proof. intros d x why. unfold parse_dds. destruct (negb _); [discriminate|apply parse_ignore_no_ub]. Qed.
Lemma usize_add_ok : forall d v a b e, usize_add d v a b = Ok e -> 128 <= a <= 148 -> 0 <= b < 2 ^ 32 -> 2 ^ 32 - 1 <= usize_max v -> e = a + b \/ e < a.
Proof.
  intros d v a b e H Ha Hb Hu. unfold usize_add in H. destruct (a + b <=? usize_max v) eqn:E; [injection H as <-; left; reflexivity|].
  destruct d; [discriminate|]. injection H as <-. right. apply wrap_small; lia.
Qed.

Lemma untransform_safe : forall (c : cfg) (v : env) (x out : list byte), supported c -> 2 ^ 32 - 1 <= usize_max v ->
  (c_debug c = true -> forall i, parse_dds_ignore_magic true x = Ok (Some i) -> 0 < i_data_length i) ->
  forall why, dds_untransform c v x out <> Ub why.
Proof.
  intros c v x out K HU HD. unfold dds_untransform. destruct (zlen x <? 4); [discriminate|]. destruct (zlen out <? zlen x); [discriminate|].
  apply bind_no_ub; [apply parse_ignore_no_ub|]. intros [i|] P; [|discriminate].
  destruct (parse_facts _ _ _ P) as (_ & _ & _ & _ & Hn & Ho & Hx).
  apply bind_no_ub; [apply usize_add_no_ub|]. intros total Etot why. destruct (zlen x <? total); [discriminate|]. revert why.
  apply bind_no_ub; [apply copy_no_ub|]. intros o1 _. apply bind_no_ub; [apply range_no_ub|]. intros hd _.
  apply bind_no_ub; [apply copy_no_ub|]. intros o2 _. apply bind_no_ub; [apply usize_add_no_ub|]. intros tend Et.
  apply bind_no_ub; [apply range_no_ub|]. intros T ET. apply bind_no_ub; [apply range_no_ub|]. intros tg Etg.
  apply range_facts in ET, Etg. destruct (usize_add_ok _ _ _ _ _ Et Ho Hn HU) as [->|Q]; [|lia].
  destruct (undispatch_total c (read_from_ptr x 0) T tg K) as (r & o & E & _); [|lia|].
  { intros D ->. rewrite D in P. specialize (HD D i P). rewrite zlen_nil in ET. lia. }
  rewrite E. cbn [bind]. destruct r; [|discriminate].
  apply bind_no_ub; [|discriminate]. intros why. destruct (_ <? _); [|discriminate]. revert why. apply bind_no_ub; [apply range_no_ub|]. intros lf _. apply copy_no_ub.
Qed.

Lemma transform_safe : forall (St Er : Type) (show : Er -> string) (c : cfg) (v : env) (t : bundle St Er) (x out : list byte) (st : St),
  supported c -> 2 ^ 32 - 1 <= usize_max v ->
  (c_debug c = true -> forall i, parse_dds true x = Ok (Some i) -> 0 < i_data_length i) ->
  forall why, dds_transform_bundle show c v t x out st <> Ub why.
Proof.
  intros St Er show c v t x out st K HU HD. unfold dds_transform_bundle. destruct (zlen out <? zlen x); [discriminate|].
  apply bind_no_ub; [apply parse_no_ub|]. intros [i|] P; [|discriminate].
  destruct (parse_facts _ _ _ (proj2 (parse_dds_facts _ _ _ P))) as (_ & _ & _ & _ & Hn & Ho & Hx).
  apply bind_no_ub; [apply usize_add_no_ub|]. intros total Etot why. destruct (zlen x <? total); [discriminate|]. revert why.
  apply bind_no_ub; [apply range_no_ub|]. intros hd _.
  apply bind_no_ub; [apply copy_no_ub|]. intros o2 _ why. destruct (dds_format_to_transform_format (i_format i) false) as [f|e]; [|discriminate].
  revert why. apply bind_no_ub; [apply usize_add_no_ub|]. intros tend Et.
  apply bind_no_ub; [apply range_no_ub|]. intros T ET. apply bind_no_ub; [apply range_no_ub|]. intros tg Etg.
  apply range_facts in ET, Etg. destruct (usize_add_ok _ _ _ _ _ Et Ho Hn HU) as [->|Q]; [|lia].
  destruct (dispatch_total show c v t f T tg st K) as (r & o & st' & E & _); [|lia|].
  { intros D ->. rewrite D in P. specialize (HD D i P). rewrite zlen_nil in ET. lia. }
  rewrite E. cbn [bind]. destruct r; [|discriminate].
  apply bind_no_ub; [|discriminate]. intros why. destruct (_ <? _); [|discriminate]. revert why. apply bind_no_ub; [apply range_no_ub|]. intros lf _. apply copy_no_ub.
Qed.

(** ** Block extraction *)
Lemma extract_eq : forall (debug : bool) (v : env) (data : list byte) (fl : format_filter) (p : option dds_info),
  2 ^ 32 + 147 <= usize_max v -> parse_dds debug data = Ok p ->
  dds_extract_blocks debug v data fl = Ok
  match p with
  | None => RErr (EFormatHandler UnknownFileFormat)
  | Some i =>
      match dds_format_to_transform_format (i_format i) true with
      | RErr e => RErr e
      | ROk f =>
          if filter_accepts fl f
          then if i_data_offset i + i_data_length i <=? zlen data
               then ROk (Some (slice data (i_data_offset i) (i_data_length i), f))
               else RErr (EFormatHandler (InputTooShortForStatedTextureSize (i_data_offset i + i_data_length i) (zlen data)))
          else ROk None
      end
  end.
Proof.
  intros debug v data fl p HU P. unfold dds_extract_blocks. rewrite P. cbn [bind]. destruct p as [i|]; [|reflexivity].
  destruct (parse_facts _ _ _ (proj2 (parse_dds_facts _ _ _ P))) as (_ & _ & _ & _ & Hn & Ho & Hx).
  destruct (dds_format_to_transform_format (i_format i) true) as [f|e]; [|reflexivity].
  destruct (filter_accepts fl f); cbn [negb]; [|reflexivity]. unfold usize_add. replace (_ <=? usize_max v) with true by lia. cbn [bind].
  destruct (i_data_offset i + i_data_length i <=? zlen data) eqn:E.
  - replace (zlen data <? _) with false by lia. unfold range. replace (_ && _) with true by lia. cbn [bind].
    replace (i_data_offset i + i_data_length i - i_data_offset i) with (i_data_length i) by lia. reflexivity.
  - replace (zlen data <? _) with true by lia. reflexivity.
Qed.
Lemma extract_inside : forall (debug : bool) (v : env) (data : list byte) (fl : format_filter) (b : list byte) (f : transform_format),
  2 ^ 32 - 1 <= usize_max v -> dds_extract_blocks debug v data fl = Ok (ROk (Some (b, f))) ->
  exists i, parse_dds debug data = Ok (Some i) /\ dds_format_to_transform_format (i_format i) true = ROk f /\ filter_accepts fl f = true /\
    i_data_offset i + i_data_length i <= zlen data /\ b = slice data (i_data_offset i) (i_data_length i).
Proof.
  intros debug v data fl b f HU E. unfold dds_extract_blocks in E. destruct (parse_dds debug data) as [[i|]| |] eqn:P; cbn [bind] in E; try discriminate.
  destruct (parse_facts _ _ _ (proj2 (parse_dds_facts _ _ _ P))) as (_ & _ & _ & _ & Hn & Ho & Hx). exists i. split; [reflexivity|].
  destruct (dds_format_to_transform_format (i_format i) true) as [g|e]; [|discriminate].
  destruct (filter_accepts fl g) eqn:FA; cbn [negb] in E; [|discriminate].
  destruct (usize_add debug v (i_data_offset i) (i_data_length i)) as [tot| |] eqn:U; cbn [bind] in E; try discriminate.
  destruct (zlen data <? tot); [discriminate|]. destruct (range data (i_data_offset i) tot) as [s| |] eqn:R; cbn [bind] in E; try discriminate.
  injection E as <- <-. apply range_facts in R. destruct (usize_add_ok _ _ _ _ _ U Ho Hn HU) as [->|Q]; [|lia].
  split; [reflexivity|]. split; [exact FA|]. split; [lia|]. destruct R as (_ & _ & _ & ->). f_equal. lia.
Qed.

(** ** Parsing, as stated in C28 and C29 *)
Lemma parse_dds_spec : forall (debug : bool) (data : list byte),
  match parse_dds debug data with
  | Ok None => has_magic data = false \/ complete_headers data = false
  | Ok (Some i) => has_magic data = true /\ complete_headers data = true /\
      i_format i = stated_format data /\ i_data_offset i = header_bytes data /\ 0 <= i_data_length i < 2 ^ 32
  | Panic _ => debug = true /\ ~ levels_fit data
  | Ub _ => False
  end.
Proof.
  intros debug data. rewrite parse_eq. destruct (has_magic data) eqn:M; [|left; reflexivity]. destruct (complete_headers data) eqn:C; [|right; reflexivity].
  cbn [andb]. destruct (run_length debug data) as [n|y|y] eqn:R; cbn [bind].
  - cbn [i_format i_data_offset i_data_length]. pose proof (run_length_bound _ _ _ R). repeat (split; [reflexivity|]). assumption.
  - split.
    + destruct debug; [reflexivity|]. destruct (run_length_release data) as (m & Q & _). rewrite Q in R. discriminate.
    + intros F. rewrite (run_length_chain debug data F) in R. discriminate.
  - exact (run_length_no_ub _ _ _ R).
Qed.
Lemma parse_chain : forall (debug : bool) (data : list byte),
  has_magic data = true -> complete_headers data = true -> levels_fit data ->
  exists i, parse_dds debug data = Ok (Some i) /\ i_data_length i = Z.min (chain_bytes data) (2 ^ 32 - 1).
Proof. intros debug data M C F. rewrite parse_eq, M, C. cbn [andb]. rewrite run_length_chain by exact F. eexists. split; reflexivity. Qed.
Lemma parse_c_spec : forall (debug : bool) (l : list byte) (len : Z), 0 <= len <= zlen l ->
  parse_dds_c debug None len = Ok (DdsInfo NotADds 0 0) /\ is_dds_c None len = Ok false /\
  is_dds_c (Some l) len = Ok ((128 <=? len) && has_magic (firstn (Z.to_nat len) l)) /\
  match parse_dds debug (firstn (Z.to_nat len) l) with
  | Ok (Some i) => parse_dds_c debug (Some l) len = Ok i
  | Ok None => parse_dds_c debug (Some l) len = Ok (DdsInfo NotADds 0 0)
  | Panic why => parse_dds_c debug (Some l) len = Panic why
  | Ub _ => False
  end.
Proof.
  intros debug l len H. split; [reflexivity|]. split; [reflexivity|]. split.
  - unfold is_dds_c. destruct (Z.eqb_spec len 0) as [->|N]; [reflexivity|]. replace (len <=? zlen l) with true by lia. rewrite likely_eq.
    replace (zlen (firstn (Z.to_nat len) l)) with len by (unfold zlen in *; rewrite firstn_length; lia). reflexivity.
  - unfold parse_dds_c. pose proof (parse_dds_spec debug (firstn (Z.to_nat len) l)) as S. destruct (Z.eqb_spec len 0) as [->|N].
    + cbn [Z.to_nat firstn] in *. destruct (parse_dds debug []) as [[i|]|y|y] eqn:E; try exact S; try reflexivity; cbv in E; discriminate.
    + replace (len <=? zlen l) with true by lia. destruct (parse_dds debug (firstn (Z.to_nat len) l)) as [[[f o n]|]|y|y]; cbn [bind]; try reflexivity. exact S.
Qed.
