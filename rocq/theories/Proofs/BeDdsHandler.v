(** The DDS handler on a big-endian machine (generated by tools/gen_be.py from
    Proofs/DdsHandler.v). *)
From Verif Require Import Base.Bytes Base.Res Model.Color565 Model.Kernel Model.Transform Model.Auto Model.Builders Model.Embed Model.Bundle Model.Dds
  Model.BeTransform Model.BeFiles.
From Verif Require Import Spec.Layout Spec.Estimator Spec.Header Spec.Files Spec.Dds Spec.BeFiles Proofs.SliceFacts Proofs.AutoTheorems Proofs.EmbedFacts
  Proofs.BeAutoTheorems Proofs.BundleFacts Proofs.BeBundleFacts Proofs.DdsFacts Proofs.DdsHandler.
From Coq Require Import ZifyBool.

Section Handler.
Context {St Er : Type}.
Variable show : Er -> string.
Variables (c : cfg) (v : env).

Lemma be_transform_pieces : forall (t : bundle St Er) H T R oH oT oR st i,
  parse_dds (c_debug c) (H ++ T ++ R) = Ok (Some i) -> i_data_offset i = zlen H -> i_data_length i = zlen T ->
  zlen H + zlen T <= usize_max v -> zlen oH = zlen H -> zlen oT = zlen T -> zlen R <= zlen oR ->
  be_dds_transform_bundle show c v t (H ++ T ++ R) (oH ++ oT ++ oR) st =
  match dds_format_to_transform_format (i_format i) false with
  | RErr e => Ok (RErr e, H ++ oT ++ oR, st)
  | ROk f =>
      do r <- be_dispatch_transform show c v t f T oT st ;;
      match r with
      | (RErr e, target, st) => Ok (RErr e, splice (H ++ oT ++ oR) (zlen H) target, st)
      | (ROk h, target, st) =>
          do output <-
            (if 0 <? zlen R
             then copy_range (splice (H ++ oT ++ oR) (zlen H) target) (zlen H + zlen T) (zlen (splice (H ++ oT ++ oR) (zlen H) target)) R
             else Ok (splice (H ++ oT ++ oR) (zlen H) target)) ;;
          Ok (ROk tt, write_to_ptr h output 0, st)
      end
  end.
Proof.
  intros t H T R oH oT oR st i P HO HL HU LH LT LR. unfold be_dds_transform_bundle.
  pose proof (zlen_nonneg _ R). pose proof (zlen_nonneg _ oR). pose proof (zlen_nonneg _ H). pose proof (zlen_nonneg _ T).
  rewrite !zlen_app. replace (zlen oH + (zlen oT + zlen oR) <? zlen H + (zlen T + zlen R)) with false by lia.
  rewrite P. cbn [bind]. rewrite HO, HL. unfold usize_add. replace (zlen H + zlen T <=? usize_max v) with true by lia. cbn [bind].
  replace (zlen H + (zlen T + zlen R) <? zlen H + zlen T) with false by lia.
  rewrite (range_head H (T ++ R) (zlen H)) by lia. cbn [bind].
  rewrite (copy_head oH (oT ++ oR) H (zlen H)) by lia. cbn [bind app].
  destruct (dds_format_to_transform_format (i_format i) false) as [f|e]; [|reflexivity].
  rewrite (range_mid H T R) by lia. cbn [bind]. rewrite (range_mid H oT oR) by lia. cbn [bind].
  replace (zlen H + zlen T <? zlen H + (zlen T + zlen R)) with (0 <? zlen R) by lia.
  destruct (be_dispatch_transform show c v t f T oT st) as [[[[h|e] target] st']| |]; cbn [bind]; try reflexivity.
  destruct (0 <? zlen R); [|reflexivity].
  replace (range (H ++ T ++ R) (zlen H + zlen T) (zlen H + (zlen T + zlen R))) with (Ok R); [reflexivity|].
  rewrite app_assoc. symmetry. apply range_tail; rewrite ?zlen_app; lia.
Qed.

Lemma be_untransform_pieces : forall M H T R oM oH oT oR i,
  parse_dds_ignore_magic (c_debug c) (M ++ H ++ T ++ R) = Ok (Some i) -> zlen M = 4 -> i_data_offset i = 4 + zlen H -> i_data_length i = zlen T ->
  4 + zlen H + zlen T <= usize_max v -> zlen oM = 4 -> zlen oH = zlen H -> zlen oT = zlen T -> zlen R <= zlen oR ->
  be_dds_untransform c v (M ++ H ++ T ++ R) (oM ++ oH ++ oT ++ oR) =
  do r <- be_dispatch_untransform c (word (M ++ H ++ T ++ R) 0) T oT ;;
  let out target := splice (u32_bytes DDS_MAGIC ++ H ++ oT ++ oR) (4 + zlen H) target in
  match r with
  | (RErr e, target) => Ok (RErr e, out target)
  | (ROk _, target) =>
      do output <- (if 0 <? zlen R then copy_range (out target) (4 + zlen H + zlen T) (zlen (out target)) R else Ok (out target)) ;;
      Ok (ROk tt, output)
  end.
Proof.
  intros M H T R oM oH oT oR i P HM HO HL HU LM LH LT LR. unfold be_dds_untransform.
  pose proof (zlen_nonneg _ R). pose proof (zlen_nonneg _ oR). pose proof (zlen_nonneg _ H). pose proof (zlen_nonneg _ T).
  rewrite !zlen_app. replace (zlen M + (zlen H + (zlen T + zlen R)) <? 4) with false by lia.
  replace (zlen oM + (zlen oH + (zlen oT + zlen oR)) <? zlen M + (zlen H + (zlen T + zlen R))) with false by lia.
  rewrite P. cbn [bind]. rewrite HO, HL. unfold usize_add. replace (4 + zlen H + zlen T <=? usize_max v) with true by lia. cbn [bind].
  replace (zlen M + (zlen H + (zlen T + zlen R)) <? 4 + zlen H + zlen T) with false by lia.
  change (zlen (u32_bytes DDS_MAGIC)) with 4.
  rewrite (copy_head oM (oH ++ oT ++ oR) (u32_bytes DDS_MAGIC) 4) by (try change (zlen (u32_bytes DDS_MAGIC)) with 4; lia).
  cbn [bind].
  rewrite (range_mid M H (T ++ R)) by lia. cbn [bind].
  rewrite (copy_mid (u32_bytes DDS_MAGIC) oH (oT ++ oR) H 4) by (try change (zlen (u32_bytes DDS_MAGIC)) with 4; lia). cbn [bind].
  rewrite (app_assoc M H), (app_assoc (u32_bytes DDS_MAGIC) H).
  rewrite (range_mid (M ++ H) T R) by (rewrite ?zlen_app; lia). cbn [bind].
  rewrite (range_mid (u32_bytes DDS_MAGIC ++ H) oT oR) by (rewrite ?zlen_app; try change (zlen (u32_bytes DDS_MAGIC)) with 4; lia). cbn [bind].
  replace (4 + zlen H + zlen T <? zlen M + (zlen H + (zlen T + zlen R))) with (0 <? zlen R) by lia.
  change (read_from_ptr ((M ++ H) ++ T ++ R) 0) with (word ((M ++ H) ++ T ++ R) 0). 
  destruct (be_dispatch_untransform c (word ((M ++ H) ++ T ++ R) 0) T oT) as [[[u|e] target]| |]; cbn [bind]; try reflexivity.
  destruct (0 <? zlen R); [|reflexivity].
  replace (range ((M ++ H) ++ T ++ R) (4 + zlen H + zlen T) (zlen M + (zlen H + (zlen T + zlen R)))) with (Ok R); [reflexivity|].
  rewrite app_assoc. symmetry. apply range_tail; rewrite ?zlen_app; lia.
Qed.

End Handler.

Lemma be_transform_sizes : forall {St Er} (show : Er -> string) c v (t : bundle St Er) x out st y st' i,
  parse_dds (c_debug c) x = Ok (Some i) -> 2 ^ 32 - 1 <= usize_max v ->
  be_dds_transform_bundle show c v t x out st = Ok (ROk tt, y, st') ->
  zlen x <= zlen out /\ i_data_offset i + i_data_length i <= zlen x /\ i_data_offset i + i_data_length i <= usize_max v.
Proof.
  intros St Er show c v t x out st y st' i P HU H. destruct (parse_dds_facts _ _ _ P) as (_ & P').
  destruct (parse_facts _ _ _ P') as (_ & _ & _ & _ & Hn & Ho & Hx). unfold be_dds_transform_bundle in H.
  destruct (zlen out <? zlen x) eqn:Z; [discriminate|]. rewrite P in H. cbn [bind] in H. unfold usize_add in H.
  destruct (i_data_offset i + i_data_length i <=? usize_max v) eqn:U.
  - cbn [bind] in H. destruct (zlen x <? i_data_offset i + i_data_length i) eqn:L; [discriminate|]. lia.
  - exfalso. destruct (c_debug c); [discriminate|]. cbn [bind] in H.
    pose proof (wrap_small v _ _ Ho Hn HU ltac:(lia)) as WS. set (w := (i_data_offset i + i_data_length i) mod (usize_max v + 1)) in *.
    destruct (zlen x <? w); [discriminate|].
    destruct (range x 0 (i_data_offset i)) as [h| |]; cbn [bind] in H; try discriminate.
    destruct (copy_range out 0 (i_data_offset i) h) as [o| |]; cbn [bind] in H; try discriminate.
    destruct (dds_format_to_transform_format (i_format i) false); try discriminate.
    unfold range in H. replace ((0 <=? i_data_offset i) && (i_data_offset i <=? w) && (w <=? zlen x)) with false in H by lia. discriminate.
Qed.

Lemma be_transform_success : forall {St Er} (show : Er -> string) c v (t : bundle St Er) x out st y st' i,
  cpu_ok c -> parse_dds (c_debug c) x = Ok (Some i) ->  2 ^ 32 - 1 <= usize_max v ->
  be_dds_transform_bundle show c v t x out st = Ok (ROk tt, y, st') ->
  let off := i_data_offset i in let n := i_data_length i in
  exists k s, i_format i = codec_dds k /\
    be_dispatch_transform show c v t (codec_format k) (slice x off n) (slice out off n) st = Ok (ROk (codec_header k s), be_texture_layout k s (slice x off n), st') /\
    n mod codec_block k = 0 /\ off + n <= zlen x /\ zlen x <= zlen out /\
    (off + n < zlen x -> zlen out = zlen x) /\
    y = u32_bytes (codec_header k s) ++ slice x 4 (off - 4) ++ be_texture_layout k s (slice x off n) ++ slice x (off + n) (zlen x - (off + n)) ++ skipn (List.length x) out.
Proof.
  intros St Er show c v t x out st y st' i K P HU E off n.
  destruct (be_transform_sizes _ _ _ _ _ _ _ _ _ _ P HU E) as (Hout & Hlen & Hmax). fold off n in Hlen, Hmax.
  destruct (parse_facts _ _ _ (proj2 (parse_dds_facts _ _ _ P))) as (_ & _ & _ & _ & Hn & Ho & Hx). fold off n in Hn, Ho, Hx.
  set (H := slice x 0 off). set (T := slice x off n). set (R := slice x (off + n) (zlen x - (off + n))).
  set (oH := slice out 0 off). set (oT := slice out off n). set (oR := slice out (off + n) (zlen out - (off + n))).
  assert (X : x = H ++ T ++ R) by (apply cut3; lia). assert (O : out = oH ++ oT ++ oR) by (apply cut3; lia).
  assert (LH : zlen H = off) by (apply zlen_slice; lia). assert (LT : zlen T = n) by (apply zlen_slice; lia). assert (LR : zlen R = zlen x - (off + n)) by (apply zlen_slice; lia).
  assert (LoH : zlen oH = off) by (apply zlen_slice; lia). assert (LoT : zlen oT = n) by (apply zlen_slice; lia). assert (LoR : zlen oR = zlen out - (off + n)) by (apply zlen_slice; lia).
  rewrite X in E at 1. rewrite O in E at 1. rewrite X in P.
  rewrite (be_transform_pieces show c v t H T R oH oT oR st i P) in E by (fold off n; lia).
  destruct (dds_format_to_transform_format (i_format i) false) as [f|e] eqn:F; [|discriminate].
  destruct (be_dispatch_transform show c v t f T oT st) as [[[[h|e] target] st1]| |] eqn:D; cbn [bind] in E; try discriminate.
  destruct (be_dispatch_ok _ _ _ _ _ _ _ _ _ _ _ K D) as (k & s & -> & -> & Hm & _ & Y).
  rewrite LT in Hm. exists k, s. split; [apply codec_dds_format; exact F|].
  rewrite skipn_all2 in Y by (apply Nat.eq_le_incl, zlen_eq; lia). rewrite app_nil_r in Y. subst target.
  match goal with |- ?a /\ ?b => cut (b /\ st1 = st'); [intros (Q1 & Q2); split; [fold T oT; rewrite D, Q2; reflexivity|exact Q1]|] end.
  rewrite !and_assoc. split; [exact Hm|]. split; [exact Hlen|]. split; [exact Hout|].
  assert (LL : zlen (be_texture_layout k s T) = n) by (unfold zlen; rewrite be_layout_len by (rewrite LT; exact Hm); exact LT).
  rewrite (splice_mid H oT oR (be_texture_layout k s T)) in E by (try apply zlen_eq; lia). set (L := be_texture_layout k s T) in *.
  assert (SH : H = slice x 0 4 ++ slice x 4 (off - 4)).
  { unfold H. replace off with (4 + (off - 4)) at 1 by lia. rewrite slice_app_split by lia. reflexivity. }
  assert (WR : forall tl, write_to_ptr (codec_header k s) (H ++ tl) 0 = u32_bytes (codec_header k s) ++ slice x 4 (off - 4) ++ tl).
  { intros tl. rewrite SH, <- app_assoc. unfold write_to_ptr. apply (splice_mid [] (slice x 0 4)); [reflexivity|].
    apply zlen_eq. change (zlen (u32_bytes (codec_header k s))) with 4. apply zlen_slice; lia. }
  assert (SR : oR = slice out (off + n) (zlen R) ++ skipn (List.length x) out).
  { unfold oR. replace (zlen out - (off + n)) with (zlen R + (zlen out - zlen x)) by lia. rewrite slice_app_split by lia. f_equal.
    unfold slice. rewrite LR. unfold zlen in *. rewrite firstn_all2 by (rewrite skipn_length; lia). f_equal. lia. }
  destruct (0 <? zlen R) eqn:Z.
  - assert (Q : zlen out = zlen x).
    { destruct (Z.eq_dec (zlen out) (zlen x)) as [Q|Q]; [exact Q|]. exfalso. unfold copy_range in E.
      rewrite app_assoc in E. rewrite range_tail in E by (rewrite ?zlen_app; lia). cbn [bind] in E.
      replace (zlen oR =? zlen R) with false in E by lia. discriminate. }
    rewrite app_assoc, copy_tail in E by (rewrite ?zlen_app; lia). cbn [bind] in E. injection E as <- <-.
    split; [intros; exact Q|]. split; [|reflexivity]. rewrite <- app_assoc, WR. unfold zlen in Q. rewrite skipn_all2 by lia. rewrite app_nil_r. reflexivity.
  - cbn [bind] in E. injection E as <- <-. split; [lia|]. split; [|reflexivity]. rewrite WR. do 3 f_equal. rewrite SR.
    replace (zlen R) with 0 by (pose proof (zlen_nonneg _ R); lia).
    unfold slice at 1. cbn [Z.to_nat firstn app]. destruct R; [reflexivity|]. rewrite zlen_cons in Z. pose proof (zlen_nonneg _ R). lia.
Qed.

Lemma be_dds_round_trip : forall (St Er : Type) (show : Er -> string) (c1 c2 : cfg) (v1 v2 : env) (t : bundle St Er)
    (x out out2 : list byte) (st st' : St) (y : list byte) (i : dds_info),
  cpu_ok c1 -> cpu_ok c2 -> parse_dds (c_debug c1) x = Ok (Some i) ->
   (c_debug c2 = true -> c_debug c1 = false -> levels_fit x) ->
  2 ^ 32 - 1 <= usize_max v1 -> zlen x <= usize_max v2 ->
  be_dds_transform_bundle show c1 v1 t x out st = Ok (ROk tt, y, st') ->
  zlen x <= zlen out2 -> (i_data_offset i + i_data_length i < zlen x -> zlen out2 = zlen x) ->
  be_dds_untransform c2 v2 (firstn (List.length x) y) out2 = Ok (ROk tt, x ++ skipn (List.length x) out2).
Proof.
  intros St Er show c1 c2 v1 v2 t x out out2 st st' y i K1 K2 P HF HU1 HU2 E Hout2 Htrail.
  destruct (be_transform_success show c1 v1 t x out st y st' i K1 P HU1 E) as (k & s & FM & _ & Hm & Hlen & Hout & _ & Y).
  destruct (parse_dds_facts _ _ _ P) as (HM & P').
  destruct (parse_facts _ _ _ P') as (_ & _ & HB & _ & Hn & Ho & Hx).
  set (off := i_data_offset i) in *. set (n := i_data_length i) in *.
  set (H := slice x 4 (off - 4)) in *. set (T := slice x off n) in *. set (R := slice x (off + n) (zlen x - (off + n))) in *.
  set (oM := slice out2 0 4). set (oH := slice out2 4 (off - 4)). set (oT := slice out2 off n). set (oR := slice out2 (off + n) (zlen out2 - (off + n))).
  assert (LM : zlen (slice x 0 4) = 4) by (apply zlen_slice; lia).
  assert (LH : zlen H = off - 4) by (apply zlen_slice; lia). assert (LT : zlen T = n) by (apply zlen_slice; lia). assert (LR : zlen R = zlen x - (off + n)) by (apply zlen_slice; lia).
  assert (LoM : zlen oM = 4) by (apply zlen_slice; lia).
  assert (LoH : zlen oH = off - 4) by (apply zlen_slice; lia). assert (LoT : zlen oT = n) by (apply zlen_slice; lia). assert (LoR : zlen oR = zlen out2 - (off + n)) by (apply zlen_slice; lia).
  assert (CUT : forall l : list byte, off + n <= zlen l -> l = slice l 0 4 ++ slice l 4 (off - 4) ++ slice l off n ++ slice l (off + n) (zlen l - (off + n))).
  { intros l Hl. rewrite (cut3 l off n) at 1 by lia. assert (Q : slice l 0 off = slice l 0 4 ++ slice l 4 (off - 4)).
    { replace off with (4 + (off - 4)) at 1 by lia. rewrite slice_app_split by lia. reflexivity. }
    rewrite Q, <- app_assoc. reflexivity. }
  assert (X : x = slice x 0 4 ++ H ++ T ++ R) by (apply CUT; lia). assert (O : out2 = oM ++ oH ++ oT ++ oR) by (apply CUT; lia).
  assert (MG : slice x 0 4 = u32_bytes DDS_MAGIC) by (apply bytes_of_word; [lia|unfold has_magic in HM; apply Z.eqb_eq in HM; exact HM]).
  set (h := u32_bytes (codec_header k s)) in *. assert (Lh : zlen h = 4) by reflexivity.
  set (L := be_texture_layout k s T) in *.
  assert (LL : zlen L = n) by (unfold L, zlen; rewrite be_layout_len by (rewrite LT; exact Hm); exact LT).
  assert (YF : firstn (List.length x) y = h ++ H ++ L ++ R) by (rewrite Y; apply app4_length; change (Z.of_nat (List.length x)) with (zlen x); lia).
  rewrite YF. rewrite O at 1.
  assert (P2 : parse_dds_ignore_magic (c_debug c2) (h ++ H ++ L ++ R) = Ok (Some i)).
  { rewrite (parse_cong (c_debug c2) x).
    - exact (parse_other _ _ _ _ P' HF).
    - rewrite X at 1. rewrite !zlen_app. lia.
    - intros o H1 H2. rewrite X at 1. apply word_mid; [apply zlen_eq; lia|lia|lia]. }
  rewrite (be_untransform_pieces c2 v2 h H L R oM oH oT oR i P2) by (unfold off, n in *; lia).
  replace (word (h ++ H ++ L ++ R) 0) with (codec_header k s) by (symmetry; apply word_head, codec_header_bound). rewrite LL. unfold L. rewrite be_round_layout; [|exact K2|rewrite LT; exact Hm|lia].
  cbn [bind]. cbv zeta. rewrite skipn_all2 by (apply Nat.eq_le_incl, zlen_eq; lia). rewrite app_nil_r.
  rewrite app_assoc. rewrite splice_mid; [|rewrite zlen_app; change (zlen (u32_bytes DDS_MAGIC)) with 4; lia|apply zlen_eq; lia].
  rewrite <- MG. assert (G : (slice x 0 4 ++ H) ++ T ++ R = x) by (symmetry; rewrite <- app_assoc; exact X).
  assert (SR : oR = slice out2 (off + n) (zlen R) ++ skipn (List.length x) out2).
  { unfold oR. replace (zlen out2 - (off + n)) with (zlen R + (zlen out2 - zlen x)) by lia. rewrite slice_app_split by lia. f_equal.
    unfold slice. rewrite LR. unfold zlen in *. rewrite firstn_all2 by (rewrite skipn_length; lia). f_equal. lia. }
  destruct (0 <? zlen R) eqn:Z.
  - specialize (Htrail ltac:(lia)). rewrite app_assoc. rewrite copy_tail by (rewrite ?zlen_app; lia). cbn [bind].
    rewrite skipn_all2 by (apply Nat.eq_le_incl, zlen_eq; lia). rewrite app_nil_r. rewrite <- app_assoc, G. reflexivity.
  - cbn [bind]. rewrite SR. assert (RN : R = []) by (destruct R; [reflexivity|rewrite zlen_cons in Z; pose proof (zlen_nonneg _ R); lia]).
    rewrite RN. change (zlen (@nil byte)) with 0. rewrite RN, app_nil_r in G. rewrite <- G at 3. rewrite <- !app_assoc. reflexivity.
Qed.

Lemma be_transformed_word : forall {St Er} (show : Er -> string) c v (t : bundle St Er) x out st y st' i,
  cpu_ok c -> parse_dds (c_debug c) x = Ok (Some i) ->  2 ^ 32 - 1 <= usize_max v ->
  be_dds_transform_bundle show c v t x out st = Ok (ROk tt, y, st') -> exists k s, word y 0 = codec_header k s.
Proof.
  intros St Er show c v t x out st y st' i K P HU E.
  destruct (be_transform_success show c v t x out st y st' i K P HU E) as (k & s & _ & _ & _ & _ & _ & _ & ->).
  exists k, s. apply word_head, codec_header_bound.
Qed.

Lemma be_transform_parses : forall {St Er} (show : Er -> string) c v (t : bundle St Er) x out st y st',
  be_dds_transform_bundle show c v t x out st = Ok (ROk tt, y, st') -> exists i, parse_dds (c_debug c) x = Ok (Some i).
Proof.
  intros St Er show c v t x out st y st' E. unfold be_dds_transform_bundle in E. destruct (zlen out <? zlen x); [discriminate|].
  destruct (parse_dds (c_debug c) x) as [[i|]| |]; cbn [bind] in E; try discriminate. exists i. reflexivity.
Qed.

Lemma be_undispatch_magic : forall c y out, zlen y <= zlen out -> be_dispatch_untransform c DDS_MAGIC y out = Ok (RErr UnknownTransformFormat, out).
Proof. intros c y out H. unfold be_dispatch_untransform. replace (zlen out <? zlen y) with false by lia. reflexivity. Qed.

Lemma be_undispatch_magic_fails : forall c y out o u, be_dispatch_untransform c DDS_MAGIC y out <> Ok (ROk u, o).
Proof. intros c y out o u. unfold be_dispatch_untransform. destruct (zlen out <? zlen y); cbn [header_format]; discriminate. Qed.

Lemma be_plain_not_untransformed : forall (c : cfg) (v : env) (x out o : list byte), has_magic x = true -> be_dds_untransform c v x out <> Ok (ROk tt, o).
Proof.
  intros c v x out o M E. unfold be_dds_untransform in E.
  destruct (zlen x <? 4); [discriminate|]. destruct (zlen out <? zlen x); [discriminate|].
  change (read_from_ptr x 0) with (word x 0) in E. unfold has_magic in M. apply Z.eqb_eq in M. rewrite M in E. change (four "DDS ") with DDS_MAGIC in E.
  repeat match goal with
  | E : (do _ <- ?e ;; _) = _ |- _ => lazymatch e with be_dispatch_untransform _ _ _ _ => fail | _ => destruct e; cbn [bind] in E; try discriminate end
  | E : match ?a with Some _ => _ | None => _ end = _ |- _ => destruct a; try discriminate
  | E : (if ?a then Ok (RErr _, _) else _) = _ |- _ => destruct a; try discriminate
  end.
  pose proof (be_undispatch_magic_fails c) as N.
  match type of E with (do _ <- be_dispatch_untransform c DDS_MAGIC ?a ?b ;; _) = _ =>
    specialize (N a b); destruct (be_dispatch_untransform c DDS_MAGIC a b) as [[[u|e] tg]| |]; cbn [bind] in E; try discriminate; exact (N tg u eq_refl) end.
Qed.

Lemma be_undispatch_total : forall c h y out, cpu_ok c ->  zlen y <= zlen out ->
  exists r o, be_dispatch_untransform c h y out = Ok (r, o) /\ zlen o = zlen out.
Proof.
  intros c h y out K H. unfold be_dispatch_untransform. replace (zlen out <? zlen y) with false by lia.
  assert (G : forall k (e : embeddable settings), exists r o,
    (match from_header e h with
      | RErr e1 => Ok (RErr (EEmbed e1), out)
      | ROk details =>
          if negb (zlen y mod codec_block k =? 0) then Ok (RErr (InvalidDataAlignment (zlen y) (codec_block k)), out)
          else
            do m <- be_core_untransform_ptr k c (Ptr BIn 0) (Ptr BOut 0) (zlen y) details (Mem y [] out) ;;
            Ok (ROk tt, m_out m)
      end) = Ok (r, o) /\ zlen o = zlen out).
  { intros k e. destruct (from_header e h) as [s|e1]; [|do 2 eexists; split; reflexivity].
    destruct (negb (zlen y mod codec_block k =? 0)) eqn:Z; [do 2 eexists; split; reflexivity|].
    destruct (be_core_untransform_ok k c s y out K ltac:(lia) H) as (x & E & _ & L & _). rewrite E. cbn [bind m_out].
    do 2 eexists. split; [reflexivity|]. unfold zlen in *. rewrite app_length, skipn_length. lia. }
  destruct (header_format h) as [f|]; [|do 2 eexists; split; reflexivity].
  destruct f; try (do 2 eexists; split; reflexivity); apply G.
Qed.

Lemma be_untransform_total : forall (c : cfg) (v : env) (x out : list byte),
  cpu_ok c -> 2 ^ 32 + 147 <= usize_max v ->
  (c_debug c = true -> levels_fit x) ->
  (forall i, parse_dds_ignore_magic (c_debug c) x = Ok (Some i) -> i_data_offset i + i_data_length i < zlen x -> zlen out <= zlen x) ->
  exists r o, be_dds_untransform c v x out = Ok (r, o) /\ zlen o = zlen out.
Proof.
  intros c v x out K HU HD HT.
  assert (PP : exists p, parse_dds_ignore_magic (c_debug c) x = Ok p).
  { rewrite parse_ignore_eq. destruct (complete_headers x); [|eexists; reflexivity]. destruct (c_debug c).
    - rewrite run_length_chain by (apply HD; reflexivity). eexists; reflexivity.
    - destruct (run_length_release x) as (n & -> & _). eexists; reflexivity. }
  destruct PP as (p & P).
  destruct (zlen x <? 4) eqn:Z4; [do 2 eexists; split; [unfold be_dds_untransform; rewrite Z4; reflexivity|reflexivity]|].
  destruct (zlen out <? zlen x) eqn:ZO; [do 2 eexists; split; [unfold be_dds_untransform; rewrite Z4, ZO; reflexivity|reflexivity]|].
  destruct p as [i|]; [|do 2 eexists; split; [unfold be_dds_untransform; rewrite Z4, ZO, P; reflexivity|reflexivity]].
  destruct (parse_facts _ _ _ P) as (_ & _ & _ & _ & Hn & Ho & Hx). set (off := i_data_offset i) in *. set (n := i_data_length i) in *.
  destruct (Z_lt_le_dec (zlen x) (off + n)) as [Lt|Le].
  - unfold be_dds_untransform. rewrite Z4, ZO, P. cbn [bind]. unfold usize_add. fold off n. replace (off + n <=? usize_max v) with true by lia. cbn [bind].
    replace (zlen x <? off + n) with true by lia. do 2 eexists; split; reflexivity.
  - specialize (HT i P). fold off n in HT.
    destruct (pieces4 x off n ltac:(lia) ltac:(lia) Le) as (M & H & T & R & X & LM & LH & LT & LR & _).
    destruct (pieces4 out off n ltac:(lia) ltac:(lia) ltac:(lia)) as (oM & oH & oT & oR & O & LoM & LoH & LoT & LoR & _).
    rewrite X in P. rewrite X, O. rewrite (be_untransform_pieces c v M H T R oM oH oT oR i P) by (fold off n; lia).
    destruct (be_undispatch_total c (word (M ++ H ++ T ++ R) 0) T oT K) as (r & tg & E & Ltg).
    { lia. }
    rewrite E. cbn [bind]. cbv zeta. rewrite app_assoc.
    rewrite splice_mid by (try apply zlen_eq; rewrite ?zlen_app; try change (zlen (u32_bytes DDS_MAGIC)) with 4; lia).
    assert (LZ : zlen ((u32_bytes DDS_MAGIC ++ H) ++ tg ++ oR) = zlen (oM ++ oH ++ oT ++ oR)) by (rewrite !zlen_app; change (zlen (u32_bytes DDS_MAGIC)) with 4; lia).
    destruct r as [u|e]; [|do 2 eexists; split; [reflexivity|exact LZ]].
    destruct (0 <? zlen R) eqn:ZR; [|do 2 eexists; split; [reflexivity|exact LZ]].
    rewrite app_assoc, copy_tail by (rewrite ?zlen_app; change (zlen (u32_bytes DDS_MAGIC)) with 4; lia). cbn [bind].
    do 2 eexists. split; [reflexivity|]. rewrite !zlen_app in *. lia.
Qed.

Lemma be_dispatch_total : forall {St Er} (show : Er -> string) c v (t : bundle St Er) f x out st, cpu_ok c -> 
  zlen x <= zlen out ->
  exists r y st', be_dispatch_transform show c v t f x out st = Ok (r, y, st') /\ forall a b, r <> RErr (EFormatHandler (FhOutputBufferTooSmall a b)).
Proof.
  intros St Er show c v t f x out st K H. unfold be_dispatch_transform. replace (zlen out <? zlen x) with false by lia.
  assert (TR : forall k s, exists r y, be_core_transform k c s x out = Ok (r, y)).
  { intros k s. destruct (zlen x mod codec_block k =? 0) eqn:Z.
    - rewrite be_core_transform_ok by (auto; lia). do 2 eexists. reflexivity.
    - destruct k; cbn [be_core_transform codec_block] in *; [unfold be_transform_bc1|unfold be_transform_bc2]; unfold checked; rewrite Z; do 2 eexists; reflexivity. }
  assert (AU : forall k (e : estimator St Er) all, exists r y st', be_core_auto k c v e all x out st = Ok (r, y, st')).
  { intros k e all. destruct (zlen x mod codec_block k =? 0) eqn:Z.
    - destruct k; cbn [be_core_auto codec_block] in *.
      + destruct (be_lC19_bc1_estimator_errors St Er c v e all x out st K ltac:(lia) H) as (r & y & st' & _ & E & _). rewrite E. do 3 eexists. reflexivity.
      + destruct (be_lC19_bc2_estimator_errors St Er c v e all x out st K ltac:(lia) H) as (r & y & st' & _ & E & _). rewrite E. do 3 eexists. reflexivity.
    - destruct k; cbn [be_core_auto codec_block] in *; [unfold be_transform_bc1_auto|unfold be_transform_bc2_auto]; unfold auto_checked; rewrite Z; do 3 eexists; reflexivity. }
  assert (SL : forall k b, exists r y st', be_transform_slice_with_details show k c v b x out st = Ok (r, y, st') /\
      forall a b, r <> RErr (EFormatHandler (FhOutputBufferTooSmall a b))).
  { intros k [b|b]; cbn [be_transform_slice_with_details].
    - unfold be_manual_transform. destruct (TR k (mb_settings b)) as (r & y & ->). cbn [bind fst snd].
      destruct (map_err from_validation_error r); do 3 eexists; (split; [reflexivity|]); intros; [discriminate|destruct k; discriminate].
    - unfold be_auto_transform. destruct (AU k (ab_estimator b) (ab_use_all b)) as (r & y & st' & ->). cbn [bind].
      destruct r; cbn [bind]; do 3 eexists; (split; [reflexivity|]); intros; [discriminate|destruct k; discriminate]. }
  assert (G : forall k b (e : embeddable settings), exists r y st',
     match b with
      | None => Ok (RErr (EFormatHandler (NoBuilderForFormat f)), out, st)
      | Some b =>
          do r <- be_transform_slice_with_details show k c v b x out st ;;
          match r with
          | (RErr e1, out, st1) => Ok (RErr e1, out, st1)
          | (ROk details, out, st1) => Ok (ROk (to_header e details), out, st1)
          end
      end = Ok (r, y, st') /\ forall a b, r <> RErr (EFormatHandler (FhOutputBufferTooSmall a b))).
  { intros k [b|] e; [|do 3 eexists; split; [reflexivity|discriminate]].
    destruct (SL k b) as (r & y & st' & -> & N). cbn [bind]. destruct r as [s|e1]; do 3 eexists; (split; [reflexivity|]); [discriminate|].
    intros p q Q. injection Q as ->. exact (N p q eq_refl). }
  destruct f; try apply G; do 3 eexists; (split; [reflexivity|discriminate]).
Qed.

Lemma be_transform_total : forall (St Er : Type) (show : Er -> string) (c : cfg) (v : env) (t : bundle St Er) (x out : list byte) (st : St),
  cpu_ok c -> 2 ^ 32 + 147 <= usize_max v ->
  (c_debug c = true -> levels_fit x) ->
  zlen x <= zlen out ->
  (forall i, parse_dds (c_debug c) x = Ok (Some i) -> i_data_offset i + i_data_length i < zlen x -> zlen out = zlen x) ->
  exists r y st', be_dds_transform_bundle show c v t x out st = Ok (r, y, st') /\ forall a b, r <> RErr (EFormatHandler (FhOutputBufferTooSmall a b)).
Proof.
  intros St Er show c v t x out st K HU HD HO HT.
  assert (PP : exists p, parse_dds (c_debug c) x = Ok p).
  { rewrite parse_eq. destruct (has_magic x && complete_headers x); [|eexists; reflexivity]. destruct (c_debug c).
    - rewrite run_length_chain by (apply HD; reflexivity). eexists; reflexivity.
    - destruct (run_length_release x) as (n & -> & _). eexists; reflexivity. }
  destruct PP as (p & P). assert (ZO : (zlen out <? zlen x) = false) by lia.
  destruct p as [i|]; [|do 3 eexists; split; [unfold be_dds_transform_bundle; rewrite ZO, P; reflexivity|discriminate]].
  destruct (parse_facts _ _ _ (proj2 (parse_dds_facts _ _ _ P))) as (_ & _ & _ & _ & Hn & Ho & Hx). set (off := i_data_offset i) in *. set (n := i_data_length i) in *.
  destruct (Z_lt_le_dec (zlen x) (off + n)) as [Lt|Le].
  - unfold be_dds_transform_bundle. rewrite ZO, P. cbn [bind]. unfold usize_add. fold off n. replace (off + n <=? usize_max v) with true by lia. cbn [bind].
    replace (zlen x <? off + n) with true by lia. do 3 eexists; split; [reflexivity|discriminate].
  - specialize (HT i P). fold off n in HT.
    destruct (pieces3 x off n ltac:(lia) ltac:(lia) Le) as (H & T & R & X & LH & LT & LR & _).
    destruct (pieces3 out off n ltac:(lia) ltac:(lia) ltac:(lia)) as (oH & oT & oR & O & LoH & LoT & LoR & _).
    rewrite X in P. rewrite X, O. rewrite (be_transform_pieces show c v t H T R oH oT oR st i P) by (fold off n; lia).
    destruct (dds_format_to_transform_format (i_format i) false) as [f|e] eqn:F; [|do 3 eexists; split; [reflexivity|]].
    2:{ intros a b Q. injection Q as ->. destruct (i_format i); discriminate F. }
    destruct (be_dispatch_total show c v t f T oT st K ltac:(lia)) as (r & tg & st' & E & N).
    rewrite E. cbn [bind].
    destruct r as [h|e]; [|do 3 eexists; split; [reflexivity|intros a b Q; injection Q as ->; exact (N a b eq_refl)]].
    destruct (be_dispatch_ok _ _ _ _ _ _ _ _ _ _ _ K E) as (k & s & _ & _ & Hm & _ & ->).
    rewrite skipn_all2 by (apply Nat.eq_le_incl, zlen_eq; lia). rewrite app_nil_r. set (L := be_texture_layout k s T).
    assert (LL : zlen L = n) by (unfold L, zlen; rewrite be_layout_len by exact Hm; exact LT).
    rewrite splice_mid by (try apply zlen_eq; rewrite ?zlen_app; lia).
    destruct (0 <? zlen R) eqn:ZR; [|do 3 eexists; split; [reflexivity|discriminate]].
    rewrite app_assoc, copy_tail by (rewrite ?zlen_app; lia). cbn [bind]. do 3 eexists; split; [reflexivity|discriminate].
Qed.

Lemma be_untransform_safe : forall (c : cfg) (v : env) (x out : list byte), cpu_ok c -> 2 ^ 32 - 1 <= usize_max v ->
  forall why, be_dds_untransform c v x out <> Ub why.
Proof.
  intros c v x out K HU. unfold be_dds_untransform. destruct (zlen x <? 4); [discriminate|]. destruct (zlen out <? zlen x); [discriminate|].
  apply bind_no_ub; [apply parse_ignore_no_ub|]. intros [i|] P; [|discriminate].
  destruct (parse_facts _ _ _ P) as (_ & _ & _ & _ & Hn & Ho & Hx).
  apply bind_no_ub; [apply usize_add_no_ub|]. intros total Etot why. destruct (zlen x <? total); [discriminate|]. revert why.
  apply bind_no_ub; [apply copy_no_ub|]. intros o1 _. apply bind_no_ub; [apply range_no_ub|]. intros hd _.
  apply bind_no_ub; [apply copy_no_ub|]. intros o2 _. apply bind_no_ub; [apply usize_add_no_ub|]. intros tend Et.
  apply bind_no_ub; [apply range_no_ub|]. intros T ET. apply bind_no_ub; [apply range_no_ub|]. intros tg Etg.
  apply range_facts in ET, Etg. destruct (usize_add_ok _ _ _ _ _ Et Ho Hn HU) as [->|Q]; [|lia].
  destruct (be_undispatch_total c (read_from_ptr x 0) T tg K) as (r & o & E & _); [lia|].
  rewrite E. cbn [bind]. destruct r; [|discriminate].
  apply bind_no_ub; [|discriminate]. intros why. destruct (_ <? _); [|discriminate]. revert why. apply bind_no_ub; [apply range_no_ub|]. intros lf _. apply copy_no_ub.
Qed.

Lemma be_transform_safe : forall (St Er : Type) (show : Er -> string) (c : cfg) (v : env) (t : bundle St Er) (x out : list byte) (st : St),
  cpu_ok c -> 2 ^ 32 - 1 <= usize_max v ->
  forall why, be_dds_transform_bundle show c v t x out st <> Ub why.
Proof.
  intros St Er show c v t x out st K HU. unfold be_dds_transform_bundle. destruct (zlen out <? zlen x); [discriminate|].
  apply bind_no_ub; [apply parse_no_ub|]. intros [i|] P; [|discriminate].
  destruct (parse_facts _ _ _ (proj2 (parse_dds_facts _ _ _ P))) as (_ & _ & _ & _ & Hn & Ho & Hx).
  apply bind_no_ub; [apply usize_add_no_ub|]. intros total Etot why. destruct (zlen x <? total); [discriminate|]. revert why.
  apply bind_no_ub; [apply range_no_ub|]. intros hd _.
  apply bind_no_ub; [apply copy_no_ub|]. intros o2 _ why. destruct (dds_format_to_transform_format (i_format i) false) as [f|e]; [|discriminate].
  revert why. apply bind_no_ub; [apply usize_add_no_ub|]. intros tend Et.
  apply bind_no_ub; [apply range_no_ub|]. intros T ET. apply bind_no_ub; [apply range_no_ub|]. intros tg Etg.
  apply range_facts in ET, Etg. destruct (usize_add_ok _ _ _ _ _ Et Ho Hn HU) as [->|Q]; [|lia].
  destruct (be_dispatch_total show c v t f T tg st K) as (r & o & st' & E & _); [lia|].
  rewrite E. cbn [bind]. destruct r; [|discriminate].
  apply bind_no_ub; [|discriminate]. intros why. destruct (_ <? _); [|discriminate]. revert why. apply bind_no_ub; [apply range_no_ub|]. intros lf _. apply copy_no_ub.
Qed.

