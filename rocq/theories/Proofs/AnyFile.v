(** Proofs of C91. *)
From Verif Require Import Base.Bytes Base.Res Model.Color565 Model.Kernel Model.Transform Model.Auto Model.Builders Model.Embed Model.Bundle Model.Dds Model.Calls.
From Verif Require Import Spec.Layout Spec.Estimator Spec.Header Spec.HeaderWord Spec.Files Spec.Dds Spec.Calls Spec.AnyFile Proofs.SliceFacts Proofs.AutoTheorems Proofs.EmbedFacts
  Proofs.BundleFacts Proofs.DdsFacts Proofs.DdsHandler Proofs.DdsRestore Proofs.DamageDds Proofs.LayoutFacts Proofs.Calls.
From Coq Require Import ZifyBool.

(** What the dispatcher answers to a header word. *)
Lemma undispatch_exact : forall c w y out, supported c -> (c_debug c = true -> y <> []) -> zlen out = zlen y ->
  match request_of w with
  | NotKnown => dispatch_untransform c w y out = Ok (RErr UnknownTransformFormat, out)
  | BadVersion => dispatch_untransform c w y out = Ok (RErr (EEmbed CorruptedEmbeddedData), out)
  | Restore k s =>
      if zlen y mod codec_block k =? 0
      then exists x, dispatch_untransform c w y out = Ok (ROk tt, x) /\ List.length x = List.length y /\ texture_layout k s x = y
      else dispatch_untransform c w y out = Ok (RErr (InvalidDataAlignment (zlen y) (codec_block k)), out)
  end.
Proof.
  intros c w y out K HD Ho. unfold dispatch_untransform. replace (zlen out <? zlen y) with false by lia. cbv zeta.
  rewrite header_format_bits. cbv zeta.
  assert (D1 := reads_by _ bc1_details 0 (fun h => bits h 4 2 =? 0) (fun h => Settings (variant_of_code (bits h 7 2)) (bits h 6 1 =? 1)) eq_refl bc12_bits w).
  assert (D2 := reads_by _ bc2_details 1 (fun h => bits h 4 2 =? 0) (fun h => Settings (variant_of_code (bits h 7 2)) (bits h 6 1 =? 1)) eq_refl bc12_bits w).
  cbv beta in D1, D2. unfold request_of. set (f := bits w 0 4) in *. assert (F : 0 <= f < 16) by (unfold f, bits; change (2 ^ 4) with 16; lia).
  assert (RUN : forall k s, (if zlen y mod codec_block k =? 0
      then exists x, (if negb (zlen y mod codec_block k =? 0) then Ok (RErr (InvalidDataAlignment (zlen y) (codec_block k)), out)
            else do m <- core_untransform_ptr k c (Ptr BIn 0) (Ptr BOut 0) (zlen y) s (Mem y [] out) ;; Ok (ROk tt, m_out m)) = Ok (ROk tt, x) /\ List.length x = List.length y /\ texture_layout k s x = y
      else (if negb (zlen y mod codec_block k =? 0) then Ok (RErr (InvalidDataAlignment (zlen y) (codec_block k)), out)
            else do m <- core_untransform_ptr k c (Ptr BIn 0) (Ptr BOut 0) (zlen y) s (Mem y [] out) ;; Ok (ROk tt, m_out m)) = Ok (RErr (InvalidDataAlignment (zlen y) (codec_block k)), out))).
  { intros k s. destruct (zlen y mod codec_block k =? 0) eqn:M; cbn [negb]; [|reflexivity].
    destruct (core_untransform_ok k c s y out K HD ltac:(lia) ltac:(lia)) as (x & E & _ & L & T). exists x. split; [|split; assumption].
    rewrite E. cbn [bind m_out]. rewrite skipn_all2 by (unfold zlen in *; lia). rewrite app_nil_r. reflexivity. }
  destruct (f =? 0) eqn:F0; [|destruct (f =? 1) eqn:F1].
  - replace (1 <? f) with false by lia. rewrite D1. cbn [negb]. destruct (bits w 4 2 =? 0); [apply (RUN CBc1)|reflexivity].
  - replace (1 <? f) with false by lia. rewrite D2. cbn [negb]. destruct (bits w 4 2 =? 0); [apply (RUN CBc2)|reflexivity].
  - replace (1 <? f) with true by lia.
    repeat match goal with |- (match (if ?b then _ else _) with _ => _ end) = _ => destruct b; [reflexivity|] end. reflexivity.
Qed.

Lemma any_file : forall (c : cfg) (v : env) (z out : list byte) (i : dds_info),
  supported c -> parse_dds_ignore_magic (c_debug c) z = Ok (Some i) -> (c_debug c = true -> 0 < i_data_length i) ->
  let off := i_data_offset i in let n := i_data_length i in
  off + n <= zlen z -> zlen z <= usize_max v -> zlen out = zlen z ->
  let headers := u32_bytes DDS_MAGIC ++ slice z 4 (off - 4) in
  let refused := headers ++ slice out off (zlen z - off) in
  match request_of (word z 0) with
  | NotKnown => dds_untransform c v z out = Ok (RErr UnknownTransformFormat, refused)
  | BadVersion => dds_untransform c v z out = Ok (RErr (EEmbed CorruptedEmbeddedData), refused)
  | Restore k s =>
      if n mod codec_block k =? 0
      then exists T, zlen T = n /\ texture_layout k s T = slice z off n /\
             dds_untransform c v z out = Ok (ROk tt, headers ++ T ++ slice z (off + n) (zlen z - (off + n)))
      else dds_untransform c v z out = Ok (RErr (InvalidDataAlignment n (codec_block k)), refused)
  end.
Proof.
  intros c v z out i K P HD off n Hz HU Lo headers refused.
  destruct (parse_facts _ _ _ P) as (_ & _ & HB & _ & Hn & Ho & Hx). fold off in Ho, HB. fold n in Hn, HD.
  set (H := slice z 4 (off - 4)) in *. set (R := slice z (off + n) (zlen z - (off + n))) in *. set (T := slice z off n) in *.
  set (oM := slice out 0 4). set (oH := slice out 4 (off - 4)). set (oT := slice out off n). set (oR := slice out (off + n) (zlen out - (off + n))).
  assert (O4 : 4 <= off) by (rewrite HB; unfold header_bytes; destruct (has_dx10 z); lia).
  assert (LM : zlen (slice z 0 4) = 4) by (apply zlen_slice; lia).
  assert (LH : zlen H = off - 4) by (apply zlen_slice; lia). assert (LT : zlen T = n) by (apply zlen_slice; lia). assert (LR : zlen R = zlen z - (off + n)) by (apply zlen_slice; lia).
  assert (LoM : zlen oM = 4) by (apply zlen_slice; lia).
  assert (LoH : zlen oH = off - 4) by (apply zlen_slice; lia). assert (LoT : zlen oT = n) by (apply zlen_slice; lia). assert (LoR : zlen oR = zlen out - (off + n)) by (apply zlen_slice; lia).
  assert (CUT : forall l : list byte, off + n <= zlen l -> l = slice l 0 4 ++ slice l 4 (off - 4) ++ slice l off n ++ slice l (off + n) (zlen l - (off + n))).
  { intros l Hl. rewrite (cut3 l off n) at 1 by lia. replace off with (4 + (off - 4)) at 1 by lia. rewrite slice_app_split by lia. rewrite <- app_assoc. reflexivity. }
  assert (Z : z = slice z 0 4 ++ H ++ T ++ R) by (apply CUT; lia). assert (O : out = oM ++ oH ++ oT ++ oR) by (apply CUT; lia).
  assert (OT : slice out off (zlen z - off) = oT ++ oR).
  { unfold oT, oR. replace (zlen z - off) with (n + (zlen out - (off + n))) by lia. rewrite slice_app_split by lia. reflexivity. }
  assert (UP : dds_untransform c v z out = dds_untransform c v (slice z 0 4 ++ H ++ T ++ R) (oM ++ oH ++ oT ++ oR)) by congruence.
  rewrite (untransform_pieces c v (slice z 0 4) H T R oM oH oT oR i) in UP; [|rewrite <- Z; exact P|unfold off, n in *; lia..].
  rewrite <- Z in UP.
  pose proof (undispatch_exact c (word z 0) T oT K) as X.
  assert (TN : c_debug c = true -> T <> []) by (intros D Q; rewrite Q, zlen_nil in LT; specialize (HD D); lia).
  specialize (X TN ltac:(lia)). rewrite LT in X.
  assert (SAME : splice (u32_bytes DDS_MAGIC ++ H ++ oT ++ oR) (4 + zlen H) oT = refused).
  { rewrite app_assoc. rewrite splice_mid; [|rewrite zlen_app; change (zlen (u32_bytes DDS_MAGIC)) with 4; lia|reflexivity].
    unfold refused, headers. rewrite OT. reflexivity. }
  destruct (request_of (word z 0)) as [| |k s].
  - rewrite UP, X. cbn [bind]. cbv zeta. rewrite SAME. reflexivity.
  - rewrite UP, X. cbn [bind]. cbv zeta. rewrite SAME. reflexivity.
  - destruct (n mod codec_block k =? 0).
    + destruct X as (T' & E & L' & ET). assert (ZT : zlen T' = n) by (unfold zlen in *; lia).
      exists T'. split; [exact ZT|]. split; [exact ET|]. rewrite UP, E. cbn [bind]. cbv zeta.
      rewrite app_assoc. rewrite splice_mid; [|rewrite zlen_app; change (zlen (u32_bytes DDS_MAGIC)) with 4; lia|apply zlen_eq; lia].
      fold headers.
      destruct (0 <? zlen R) eqn:ZR.
      * rewrite (app_assoc headers T' oR). rewrite copy_tail by (unfold headers; rewrite ?zlen_app; change (zlen (u32_bytes DDS_MAGIC)) with 4; lia). cbn [bind].
        rewrite <- app_assoc. reflexivity.
      * cbn [bind]. assert (RN : forall l : list byte, zlen l <= 0 -> l = []) by (intros [|b l] Q; [reflexivity|rewrite zlen_cons in Q; pose proof (zlen_nonneg _ l); lia]).
        rewrite (RN R), (RN oR) by lia. reflexivity.
    + rewrite UP, X. cbn [bind]. cbv zeta. rewrite SAME. reflexivity.
Qed.

(** The header word a transform writes asks for its own codec and settings. *)
Lemma own_request : forall k s, request_of (codec_header k s) = Restore k s.
Proof. intros [] [[] []]; reflexivity. Qed.

Lemma word_bits : forall w w', bits w 0 9 = bits w' 0 9 -> request_of w = request_of w'.
Proof.
  intros w w' E.
  assert (B : forall h lo n, 0 <= lo -> 0 <= n -> lo + n <= 9 -> bits h lo n = bits (bits h 0 9) lo n).
  { intros h lo n H1 H2 H3. rewrite bits_bits by lia. reflexivity. }
  assert (Q : forall lo n, 0 <= lo -> 0 <= n -> lo + n <= 9 -> bits w lo n = bits w' lo n).
  { intros lo n H1 H2 H3. rewrite (B w), (B w') by assumption. rewrite E. reflexivity. }
  unfold request_of. rewrite (Q 0 4), (Q 4 2), (Q 7 2), (Q 6 1) by lia. reflexivity.
Qed.

Lemma word_front : forall h rest, zlen h = 4 -> word (h ++ rest) 0 = word h 0.
Proof.
  intros h rest L. unfold word, znth. rewrite !app_nth1 by (unfold zlen in L; lia). reflexivity.
Qed.

Lemma header_damage : forall (St Er : Type) (show : Er -> string) (c1 c2 : cfg) (v1 v2 : env) (t : bundle St Er)
    (x out : list byte) (st st' : St) (y : list byte) (i : dds_info) (h out2 : list byte),
  supported c1 -> supported c2 -> parse_dds (c_debug c1) x = Ok (Some i) ->
  (c_debug c1 = true \/ c_debug c2 = true -> 0 < i_data_length i) -> (c_debug c2 = true -> c_debug c1 = false -> levels_fit x) ->
  2 ^ 32 - 1 <= usize_max v1 ->
  dds_transform_bundle show c1 v1 t x out st = Ok (ROk tt, y, st') ->
  zlen h = 4 -> zlen x <= usize_max v2 -> zlen out2 = zlen x ->
  let off := i_data_offset i in let n := i_data_length i in let z := with_word h (firstn (List.length x) y) in
  exists k0 s0, request_of (word y 0) = Restore k0 s0 /\ slice y off n = texture_layout k0 s0 (slice x off n) /\
    match request_of (word h 0) with
    | NotKnown => exists o, dds_untransform c2 v2 z out2 = Ok (RErr UnknownTransformFormat, o)
    | BadVersion => exists o, dds_untransform c2 v2 z out2 = Ok (RErr (EEmbed CorruptedEmbeddedData), o)
    | Restore k s =>
        if n mod codec_block k =? 0
        then exists T, zlen T = n /\ texture_layout k s T = slice y off n /\
               (T = slice x off n <-> texture_layout k s (slice x off n) = slice y off n) /\
               dds_untransform c2 v2 z out2 = Ok (ROk tt, slice x 0 off ++ T ++ slice x (off + n) (zlen x - (off + n)))
        else exists o, dds_untransform c2 v2 z out2 = Ok (RErr (InvalidDataAlignment n (codec_block k)), o)
    end.
Proof.
  intros St Er show c1 c2 v1 v2 t x out st st' y i h out2 K1 K2 P HD HF HU1 E Lh HU2 Lo off n z.
  destruct (transform_success show c1 v1 t x out st y st' i K1 P ltac:(auto) HU1 E) as (k0 & s0 & FM & _ & Hm & Hlen & Hout & _ & Y).
  destruct (parse_dds_facts _ _ _ P) as (HM & P').
  destruct (parse_facts _ _ _ P') as (_ & _ & HB & _ & Hn & Ho & Hx).
  fold off n in FM, Hm, Hlen, Y, Hn, Ho, Hx, HD. fold off in HB.
  set (T := slice x off n) in *. set (H := slice x 4 (off - 4)) in *. set (R := slice x (off + n) (zlen x - (off + n))) in *. set (L := texture_layout k0 s0 T) in *.
  set (h0 := u32_bytes (codec_header k0 s0)) in *. assert (Lh0 : zlen h0 = 4) by reflexivity.
  assert (O4 : 4 <= off) by (rewrite HB; unfold header_bytes; destruct (has_dx10 x); lia).
  assert (LT : zlen T = n) by (apply zlen_slice; lia). assert (LH : zlen H = off - 4) by (apply zlen_slice; lia). assert (LR : zlen R = zlen x - (off + n)) by (apply zlen_slice; lia).
  assert (LL : zlen L = n) by (unfold L, zlen; rewrite layout_len by (rewrite LT; exact Hm); exact LT).
  assert (YF : firstn (List.length x) y = h0 ++ H ++ L ++ R).
  { rewrite Y. replace (h0 ++ H ++ L ++ R ++ skipn (List.length x) out) with ((h0 ++ H ++ L ++ R) ++ skipn (List.length x) out) by (rewrite <- !app_assoc; reflexivity).
    rewrite firstn_app. assert (Q : List.length (h0 ++ H ++ L ++ R) = List.length x) by (apply zlen_eq; rewrite !zlen_app; lia).
    rewrite <- Q, firstn_all, Nat.sub_diag. apply app_nil_r. }
  assert (ZC : z = h ++ H ++ L ++ R).
  { unfold z, with_word. rewrite YF. reflexivity. }
  assert (YL : slice y off n = L) by (rewrite Y, app_assoc; apply slice_mid; [rewrite zlen_app; lia|exact LL]).
  exists k0, s0. split; [|split; [exact YL|]].
  { rewrite Y. rewrite (word_head (codec_header k0 s0)) by apply codec_header_bound. apply own_request. }
  assert (LZ : zlen z = zlen x) by (rewrite ZC, !zlen_app; lia).
  assert (XC : x = slice x 0 4 ++ H ++ T ++ R).
  { rewrite (cut3 x off n) at 1 by lia. replace off with (4 + (off - 4)) at 1 by lia. rewrite slice_app_split by lia. rewrite <- app_assoc. reflexivity. }
  assert (L4 : zlen (slice x 0 4) = 4) by (apply zlen_slice; lia).
  assert (PZ : parse_dds_ignore_magic (c_debug c2) z = Ok (Some i)).
  { rewrite (parse_cong (c_debug c2) x); [exact (parse_other _ _ _ _ P' HF)|lia|]. intros o H1 H2. rewrite ZC. rewrite XC at 1.
    apply word_mid; [apply zlen_eq; lia|lia|lia]. }
  pose proof (any_file c2 v2 z out2 i K2 PZ ltac:(auto)) as A. cbv zeta in A. fold off n in A. rewrite LZ in A.
  specialize (A Hlen HU2 Lo).
  assert (Z4 : slice z 4 (off - 4) = H) by (rewrite ZC; apply (slice_mid h H); lia).
  assert (ZT : slice z off n = L) by (rewrite ZC, app_assoc; apply slice_mid; [rewrite zlen_app; lia|exact LL]).
  assert (ZR : slice z (off + n) (zlen x - (off + n)) = R) by (rewrite ZC, app_assoc; apply slice_end; rewrite ?zlen_app; lia).
  assert (ZW : word z 0 = word h 0) by (rewrite ZC; apply word_front; exact Lh).
  rewrite Z4, ZT, ZR, ZW in A.
  assert (MG : slice x 0 4 = u32_bytes DDS_MAGIC) by (apply bytes_of_word; [lia|unfold has_magic in HM; apply Z.eqb_eq in HM; exact HM]).
  assert (HX : slice x 0 off = u32_bytes DDS_MAGIC ++ H).
  { replace off with (4 + (off - 4)) at 1 by lia. rewrite slice_app_split by lia. rewrite MG. reflexivity. }
  destruct (request_of (word h 0)) as [| |k s].
  - eexists. exact A.
  - eexists. exact A.
  - destruct (n mod codec_block k =? 0) eqn:M; [|eexists; exact A].
    destruct A as (T' & LT' & ET & R'). exists T'. split; [exact LT'|]. rewrite YL. split; [exact ET|]. split; [|rewrite HX; exact R'].
    split; [intros <-; exact ET|]. intros Q. apply (layout_inj k s); [rewrite LT'; lia|apply zlen_eq; lia|congruence].
Qed.

(** Damage to the reserved bits does not matter. *)
Lemma reserved_bits : forall (St Er : Type) (show : Er -> string) (c1 c2 : cfg) (v1 v2 : env) (t : bundle St Er)
    (x out : list byte) (st st' : St) (y : list byte) (i : dds_info) (h out2 : list byte),
  supported c1 -> supported c2 -> parse_dds (c_debug c1) x = Ok (Some i) ->
  (c_debug c1 = true \/ c_debug c2 = true -> 0 < i_data_length i) -> (c_debug c2 = true -> c_debug c1 = false -> levels_fit x) ->
  2 ^ 32 - 1 <= usize_max v1 ->
  dds_transform_bundle show c1 v1 t x out st = Ok (ROk tt, y, st') ->
  zlen h = 4 -> zlen x <= usize_max v2 -> zlen out2 = zlen x ->
  bits (word h 0) 0 9 = bits (word y 0) 0 9 ->
  dds_untransform c2 v2 (with_word h (firstn (List.length x) y)) out2 = Ok (ROk tt, x).
Proof.
  intros St Er show c1 c2 v1 v2 t x out st st' y i h out2 K1 K2 P HD HF HU1 E Lh HU2 Lo B.
  destruct (header_damage _ _ show c1 c2 v1 v2 t x out st st' y i h out2 K1 K2 P HD HF HU1 E Lh HU2 Lo) as (k0 & s0 & Q & YL & A).
  rewrite (word_bits _ _ B), Q in A.
  destruct (transform_success show c1 v1 t x out st y st' i K1 P ltac:(auto) HU1 E) as (k1 & s1 & _ & _ & Hm & Hlen & _ & _ & Y).
  assert (QQ : request_of (word y 0) = Restore k1 s1).
  { rewrite Y at 1. rewrite (word_head (codec_header k1 s1)) by apply codec_header_bound. apply own_request. }
  assert (k1 = k0) as -> by congruence. destruct (parse_facts _ _ _ (proj2 (parse_dds_facts _ _ _ P))) as (_ & _ & _ & _ & Hn & Ho & Hx).
  replace (i_data_length i mod codec_block k0 =? 0) with true in A by lia. destruct A as (T & _ & _ & IFF & R).
  rewrite R. do 2 f_equal. rewrite (proj2 IFF (eq_sym YL)). symmetry. apply cut3; lia.
Qed.

(** What a wrong header restores can be turned into the original. *)
Lemma job_layout : forall k s x, lay_of false (job_of k s) x = texture_layout k s x.
Proof. intros [] s x; reflexivity. Qed.
Lemma job_block : forall k s, block (job_of k s) = codec_block k.
Proof. intros [] s; reflexivity. Qed.
Lemma remade : forall k s k0 s0 T X c3 c4 o1 o2, supported c3 -> supported c4 -> T <> [] -> zlen X = zlen T ->
  zlen T mod codec_block k = 0 -> zlen T mod codec_block k0 = 0 -> texture_layout k s T = texture_layout k0 s0 X ->
  zlen T <= zlen o1 -> zlen T <= zlen o2 ->
  performs [Call (Little c3) (job_of k s) false o1; Call (Little c4) (job_of k0 s0) true o2] T = Ok (ROk X).
Proof.
  intros k s k0 s0 T X c3 c4 o1 o2 K3 K4 NE LX M M0 E L1 L2.
  set (ks := [Call (Little c3) (job_of k s) false o1; Call (Little c4) (job_of k0 s0) true o2]).
  assert (A : Forall (allowed (zlen T)) ks).
  { constructor; [|constructor; [|constructor]]; (split; [assumption|]); cbn [k_job k_out]; rewrite job_block; split; assumption. }
  destruct (run_turns ks T NE A) as (z & R & TS & _). rewrite R. do 2 f_equal.
  apply (turnss_fun ks ks T z X); [exact (jobs_fit _ _ A)|apply alike_refl|exact TS|].
  assert (LL : List.length (texture_layout k s T) = List.length T) by (apply layout_len; exact M).
  exists (texture_layout k s T). split; [split; [exact LL|symmetry; apply job_layout]|].
  exists X. split; [|reflexivity]. split; [|cbn [k_back k_on k_job big]; rewrite job_layout; congruence].
  apply zlen_eq. rewrite LX. unfold zlen. congruence.
Qed.

Lemma recovered : forall (St Er : Type) (show : Er -> string) (c1 c2 : cfg) (v1 v2 : env) (t : bundle St Er)
    (x out : list byte) (st st' : St) (y : list byte) (i : dds_info) (h out2 o : list byte) (k k0 : codec) (s s0 : settings),
  supported c1 -> supported c2 -> parse_dds (c_debug c1) x = Ok (Some i) ->
  0 < i_data_length i -> (c_debug c2 = true -> c_debug c1 = false -> levels_fit x) ->
  2 ^ 32 - 1 <= usize_max v1 ->
  dds_transform_bundle show c1 v1 t x out st = Ok (ROk tt, y, st') ->
  zlen h = 4 -> zlen x <= usize_max v2 -> zlen out2 = zlen x ->
  let off := i_data_offset i in let n := i_data_length i in
  dds_untransform c2 v2 (with_word h (firstn (List.length x) y)) out2 = Ok (ROk tt, o) ->
  request_of (word h 0) = Restore k s -> request_of (word y 0) = Restore k0 s0 ->
  forall (c3 c4 : cfg) (o1 o2 : list byte), supported c3 -> supported c4 -> n <= zlen o1 -> n <= zlen o2 ->
  performs [Call (Little c3) (job_of k s) false o1; Call (Little c4) (job_of k0 s0) true o2] (slice o off n) = Ok (ROk (slice x off n)).
Proof.
  intros St Er show c1 c2 v1 v2 t x out st st' y i h out2 o k k0 s s0 K1 K2 P HD HF HU1 E Lh HU2 Lo off n U Q Q0 c3 c4 o1 o2 K3 K4 L1 L2.
  destruct (header_damage _ _ show c1 c2 v1 v2 t x out st st' y i h out2 K1 K2 P ltac:(auto) HF HU1 E Lh HU2 Lo) as (k1 & s1 & Q1 & YL & A).
  rewrite Q0 in Q1. injection Q1 as <- <-. rewrite Q in A.
  destruct (transform_success show c1 v1 t x out st y st' i K1 P ltac:(auto) HU1 E) as (k1 & s1 & _ & _ & Hm & Hlen & _ & _ & Y).
  assert (QQ : request_of (word y 0) = Restore k1 s1).
  { rewrite Y at 1. rewrite (word_head (codec_header k1 s1)) by apply codec_header_bound. apply own_request. }
  assert (k1 = k0) as -> by congruence. destruct (parse_facts _ _ _ (proj2 (parse_dds_facts _ _ _ P))) as (_ & _ & _ & _ & Hn & Ho & Hx).
  fold off n in YL, A, Hm, Hlen, Hn, Ho. fold n in HD.
  destruct (n mod codec_block k =? 0) eqn:M.
  - destruct A as (T & LT & ET & _ & R). rewrite U in R. injection R as ->.
    rewrite slice_mid by (rewrite ?zlen_slice by lia; lia).
    apply remade; try assumption.
    + intros ->. rewrite zlen_nil in LT. lia.
    + rewrite zlen_slice by lia. lia.
    + rewrite LT. apply Z.eqb_eq. exact M.
    + rewrite LT. exact Hm.
    + congruence.
    + lia.
    + lia.
  - destruct A as (o' & R). rewrite U in R. discriminate R.
Qed.

(** Single bits. *)
Definition other (k : codec) : codec := match k with CBc1 => CBc2 | CBc2 => CBc1 end.
Lemma bit_flips : forall k s b, 0 <= b < 32 ->
  request_of (Z.lxor (codec_header k s) (2 ^ b)) =
    if b =? 0 then Restore (other k) s
    else if b <? 4 then NotKnown
    else if b <? 6 then BadVersion
    else if b =? 6 then Restore k (Settings (decorrelation_mode s) (negb (split_colour_endpoints s)))
    else if b =? 7 then Restore k (Settings (match decorrelation_mode s with V1 => V2 | V2 => V1 | V3 => VNone | VNone => V3 end) (split_colour_endpoints s))
    else if b =? 8 then Restore k (Settings (match decorrelation_mode s with V1 => V3 | V3 => V1 | V2 => VNone | VNone => V2 end) (split_colour_endpoints s))
    else Restore k s.
Proof.
  intros k s b Hb.
  assert (C : In b (zseq 0 32)) by (apply in_zseq; lia).
  destruct k, s as [[] []]; cbn in C; repeat (destruct C as [<- | C]; [reflexivity|]); destruct C.
Qed.
