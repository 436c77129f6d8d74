(** Which files the DDS handler accepts, and which errors it reports. *)
From Verif Require Import Base.Bytes Base.Res Model.Kernel Model.Transform Model.Auto Model.Builders Model.Embed Model.Bundle Model.Dds.
From Verif Require Import Spec.Layout Spec.Files Spec.Dds Proofs.SliceFacts Proofs.BundleFacts Proofs.DdsFacts Proofs.DdsHandler.
From Coq Require Import ZifyBool ZifyNat.
Open Scope list_scope.
Open Scope Z_scope.

Lemma parse_ignore_spec : forall (debug : bool) (data : list byte),
  match parse_dds_ignore_magic debug data with
  | Ok None => complete_headers data = false
  | Ok (Some i) => complete_headers data = true /\
      i_format i = stated_format data /\ i_data_offset i = header_bytes data /\ 0 <= i_data_length i < 2 ^ 32
  | Panic _ => debug = true /\ ~ levels_fit data
  | Ub _ => False
  end.
Proof.
  intros debug data. rewrite parse_ignore_eq. destruct (complete_headers data) eqn:C; [|reflexivity].
  destruct (run_length debug data) as [n|y|y] eqn:R; cbn [bind].
  - cbn [i_format i_data_offset i_data_length]. pose proof (run_length_bound _ _ _ R). repeat (split; [reflexivity|]). assumption.
  - split.
    + destruct debug; [reflexivity|]. destruct (run_length_release data) as (m & Q & _). rewrite Q in R. discriminate.
    + intros F. rewrite (run_length_chain debug data F) in R. discriminate.
  - exact (run_length_no_ub _ _ _ R).
Qed.

Lemma can_handle_spec : forall (debug : bool) (data : list byte) (ext : option string),
  match dds_can_handle debug data ext with
  | Ok a => a = dds_named ext && has_magic data && complete_headers data
  | Panic _ => debug = true /\ ~ levels_fit data /\ dds_named ext && has_magic data && complete_headers data = true
  | Ub _ => False
  end.
Proof.
  intros debug data ext. unfold dds_can_handle, dds_named.
  assert (G : match (do i <- parse_dds debug data ;; Ok (match i with Some _ => true | None => false end)) with
    | Ok a => a = has_magic data && complete_headers data
    | Panic _ => debug = true /\ ~ levels_fit data /\ has_magic data && complete_headers data = true
    | Ub _ => False end).
  { pose proof (parse_dds_spec debug data) as S. pose proof (parse_eq debug data) as Q.
    destruct (parse_dds debug data) as [[i|]| |]; cbn [bind].
    - destruct S as (-> & -> & _). reflexivity.
    - destruct S as [->| ->]; [reflexivity|destruct (has_magic data); reflexivity].
    - destruct S as (A & B). split; [exact A|]. split; [exact B|]. destruct (has_magic data && complete_headers data); [reflexivity|discriminate].
    - exact S. }
  destruct ext as [e|]; [|exact G]. destruct (String.eqb e "dds"); cbn [negb andb]; [exact G|reflexivity].
Qed.
Lemma can_handle_untransform_spec : forall (debug : bool) (data : list byte) (ext : option string),
  match dds_can_handle_untransform debug data ext with
  | Ok a => a = dds_named ext && complete_headers data
  | Panic _ => debug = true /\ ~ levels_fit data /\ dds_named ext && complete_headers data = true
  | Ub _ => False
  end.
Proof.
  intros debug data ext. unfold dds_can_handle_untransform, dds_named.
  assert (G : match (if zlen data <? 4 then Ok false else do i <- parse_dds_ignore_magic debug data ;; Ok (match i with Some _ => true | None => false end)) with
    | Ok a => a = complete_headers data
    | Panic _ => debug = true /\ ~ levels_fit data /\ complete_headers data = true
    | Ub _ => False end).
  { destruct (zlen data <? 4) eqn:L.
    - unfold complete_headers. replace (128 <=? zlen data) with false by lia. reflexivity.
    - pose proof (parse_ignore_spec debug data) as S. pose proof (parse_ignore_eq debug data) as Q.
      destruct (parse_dds_ignore_magic debug data) as [[i|]| |]; cbn [bind].
      + destruct S as (-> & _). reflexivity.
      + rewrite S. reflexivity.
      + destruct S as (A & B). split; [exact A|]. split; [exact B|]. destruct (complete_headers data); [reflexivity|discriminate].
      + exact S. }
  cbv zeta. destruct ext as [e|]; [|exact G]. destruct (String.eqb e "dds"); cbn [negb andb]; [exact G|reflexivity].
Qed.

(** ** Errors *)
Lemma transform_error_cases : forall (St Er : Type) (show : Er -> string) (c : cfg) (v : env) (t : bundle St Er) (x out : list byte) (st : St),
  2 ^ 32 + 147 <= usize_max v ->
  let need i := header_bytes x + i_data_length i in
  (zlen out < zlen x ->
     dds_transform_bundle show c v t x out st = Ok (RErr (EFormatHandler (FhOutputBufferTooSmall (zlen x) (zlen out))), out, st)) /\
  (zlen x <= zlen out -> has_magic x && complete_headers x = false ->
     dds_transform_bundle show c v t x out st = Ok (RErr (EFormatHandler InvalidInputFileHeader), out, st)) /\
  (forall i, zlen x <= zlen out -> parse_dds (c_debug c) x = Ok (Some i) -> zlen x < need i ->
     dds_transform_bundle show c v t x out st = Ok (RErr (EFormatHandler (InputTooShortForStatedTextureSize (need i) (zlen x))), out, st)) /\
  (forall i e, zlen x <= zlen out -> parse_dds (c_debug c) x = Ok (Some i) -> need i <= zlen x -> dds_format_to_transform_format (stated_format x) false = RErr e ->
     dds_transform_bundle show c v t x out st =
       Ok (RErr e, firstn (Z.to_nat (header_bytes x)) x ++ skipn (Z.to_nat (header_bytes x)) out, st)).
Proof.
  intros St Er show c v t x out st HU need. unfold dds_transform_bundle. split; [|split; [|split]].
  - intros L. replace (zlen out <? zlen x) with true by lia. reflexivity.
  - intros L M. replace (zlen out <? zlen x) with false by lia. rewrite parse_eq, M. reflexivity.
  - intros i L P S. replace (zlen out <? zlen x) with false by lia. rewrite P. cbn [bind].
    pose proof (parse_dds_spec (c_debug c) x) as Q. rewrite P in Q. destruct Q as (_ & _ & _ & HO & HN). unfold need in *. rewrite HO.
    assert (HB : header_bytes x <= 148) by (unfold header_bytes; destruct (has_dx10 x); lia).
    unfold usize_add. replace (_ <=? usize_max v) with true by lia. cbn [bind]. replace (zlen x <? _) with true by lia. reflexivity.
  - intros i e L P S F. replace (zlen out <? zlen x) with false by lia. rewrite P. cbn [bind].
    pose proof (parse_dds_spec (c_debug c) x) as Q. rewrite P in Q. destruct Q as (_ & _ & HF & HO & HN). unfold need in *. rewrite HO, HF, F.
    assert (HB : 128 <= header_bytes x <= 148) by (unfold header_bytes; destruct (has_dx10 x); lia).
    unfold usize_add. replace (_ <=? usize_max v) with true by lia. cbn [bind]. replace (zlen x <? _) with false by lia.
    assert (EO : out = firstn (Z.to_nat (header_bytes x)) out ++ skipn (Z.to_nat (header_bytes x)) out) by (symmetry; apply firstn_skipn).
    assert (EX' : x = firstn (Z.to_nat (header_bytes x)) x ++ skipn (Z.to_nat (header_bytes x)) x) by (symmetry; apply firstn_skipn).
    assert (L1 : zlen (firstn (Z.to_nat (header_bytes x)) x) = header_bytes x) by (unfold zlen in *; rewrite firstn_length; lia).
    assert (L2 : zlen (firstn (Z.to_nat (header_bytes x)) out) = header_bytes x) by (unfold zlen in *; rewrite firstn_length; lia).
    rewrite EX' at 1. rewrite (range_head _ _ _ L1). cbn [bind]. rewrite EO at 1. rewrite copy_head by (rewrite ?L1, ?L2; reflexivity). cbn [bind]. reflexivity.
Qed.

Lemma untransform_error_cases : forall (c : cfg) (v : env) (x out : list byte),
  2 ^ 32 + 147 <= usize_max v ->
  let need i := header_bytes x + i_data_length i in
  (zlen x < 4 -> dds_untransform c v x out = Ok (RErr (EFormatHandler (InputTooShort 4 (zlen x))), out)) /\
  (4 <= zlen x -> zlen out < zlen x ->
     dds_untransform c v x out = Ok (RErr (EFormatHandler (FhOutputBufferTooSmall (zlen x) (zlen out))), out)) /\
  (4 <= zlen x <= zlen out -> complete_headers x = false -> dds_untransform c v x out = Ok (RErr (EFormatHandler InvalidRestoredFileHeader), out)) /\
  (forall i, zlen x <= zlen out -> parse_dds_ignore_magic (c_debug c) x = Ok (Some i) -> zlen x < need i ->
     dds_untransform c v x out = Ok (RErr (EFormatHandler (InputTooShortForStatedTextureSize (need i) (zlen x))), out)).
Proof.
  intros c v x out HU need. unfold dds_untransform. split; [|split; [|split]].
  - intros L. replace (zlen x <? 4) with true by lia. reflexivity.
  - intros L1 L2. replace (zlen x <? 4) with false by lia. replace (zlen out <? zlen x) with true by lia. reflexivity.
  - intros L M. replace (zlen x <? 4) with false by lia. replace (zlen out <? zlen x) with false by lia. rewrite parse_ignore_eq, M. reflexivity.
  - intros i L P S. pose proof (parse_ignore_spec (c_debug c) x) as Q. rewrite P in Q. destruct Q as (HC & _ & HO & HN). unfold need in *.
    assert (HB : header_bytes x <= 148) by (unfold header_bytes; destruct (has_dx10 x); lia).
    unfold complete_headers in HC. replace (zlen x <? 4) with false by lia. replace (zlen out <? zlen x) with false by lia. rewrite P. cbn [bind].
    rewrite HO. unfold usize_add. replace (_ <=? usize_max v) with true by lia. cbn [bind]. replace (zlen x <? _) with true by lia. reflexivity.
Qed.

Lemma get_format_eq : forall (debug : bool) (data : list byte) (fl : format_filter) (p : option dds_info),
  parse_dds debug data = Ok p ->
  dds_get_transform_format debug data fl = Ok
  match p with
  | None => RErr (EFormatHandler UnknownFileFormat)
  | Some _ =>
      match block_format (stated_format data) with
      | None => RErr (EFormatHandler UnknownFileFormat)
      | Some f => ROk (if filter_accepts fl f then Some f else None)
      end
  end.
Proof.
  intros debug data fl p P. unfold dds_get_transform_format. rewrite P. cbn [bind]. destruct p as [i|]; [|reflexivity].
  pose proof (parse_dds_spec debug data) as S. rewrite P in S. destruct S as (_ & _ & -> & _).
  destruct (stated_format data); cbn [dds_format_to_transform_format block_format]; try reflexivity; destruct (filter_accepts fl _); reflexivity.
Qed.
(** The two ways of looking at a file agree. *)
Lemma get_format_extract : forall (debug : bool) (v : env) (data : list byte) (fl : format_filter) (b : list byte) (f : transform_format),
  2 ^ 32 - 1 <= usize_max v -> dds_extract_blocks debug v data fl = Ok (ROk (Some (b, f))) -> dds_get_transform_format debug data fl = Ok (ROk (Some f)).
Proof.
  intros debug v data fl b f HU E. destruct (extract_inside _ _ _ _ _ _ HU E) as (i & P & F & A & _). unfold dds_get_transform_format. rewrite P. cbn [bind].
  rewrite F, A. reflexivity.
Qed.

(** The same with the formats spelled out. *)
Lemma format_true : forall f, dds_format_to_transform_format f true = match block_format f with Some g => ROk g | None => RErr (EFormatHandler UnknownFileFormat) end.
Proof. intros []; reflexivity. Qed.
Lemma format_false : forall f e, refused f = Some e -> dds_format_to_transform_format f false = RErr e.
Proof. intros [] e H; try discriminate H; injection H as <-; reflexivity. Qed.
Lemma extract_eq' : forall (debug : bool) (v : env) (data : list byte) (fl : format_filter) (p : option dds_info),
  2 ^ 32 + 147 <= usize_max v -> parse_dds debug data = Ok p ->
  dds_extract_blocks debug v data fl = Ok
  match p with
  | None => RErr (EFormatHandler UnknownFileFormat)
  | Some i =>
      match block_format (i_format i) with
      | None => RErr (EFormatHandler UnknownFileFormat)
      | Some f =>
          if filter_accepts fl f
          then if i_data_offset i + i_data_length i <=? zlen data
               then ROk (Some (slice data (i_data_offset i) (i_data_length i), f))
               else RErr (EFormatHandler (InputTooShortForStatedTextureSize (i_data_offset i + i_data_length i) (zlen data)))
          else ROk None
      end
  end.
Proof. intros debug v data fl p HU P. rewrite (extract_eq _ _ _ _ _ HU P). destruct p as [i|]; [|reflexivity]. rewrite format_true. destruct (block_format (i_format i)); reflexivity. Qed.
Lemma extract_inside' : forall (debug : bool) (v : env) (data : list byte) (fl : format_filter) (b : list byte) (f : transform_format),
  2 ^ 32 - 1 <= usize_max v -> dds_extract_blocks debug v data fl = Ok (ROk (Some (b, f))) ->
  exists i, parse_dds debug data = Ok (Some i) /\ block_format (i_format i) = Some f /\ filter_accepts fl f = true /\
    i_data_offset i + i_data_length i <= zlen data /\ b = slice data (i_data_offset i) (i_data_length i).
Proof.
  intros debug v data fl b f HU E. destruct (extract_inside _ _ _ _ _ _ HU E) as (i & P & Q & R). exists i. split; [exact P|]. split; [|exact R].
  rewrite format_true in Q. destruct (block_format (i_format i)); [congruence|discriminate].
Qed.
Lemma format_accepted : forall f g, refused f = None -> block_format f = Some g -> dds_format_to_transform_format f false = ROk g.
Proof. intros [] g H B; try discriminate H; injection B as <-; reflexivity. Qed.
Lemma transform_error_cases' : forall (St Er : Type) (show : Er -> string) (c : cfg) (v : env) (t : bundle St Er) (x out : list byte) (st : St),
  2 ^ 32 + 147 <= usize_max v ->
  let need i := header_bytes x + i_data_length i in
  (zlen out < zlen x ->
     dds_transform_bundle show c v t x out st = Ok (RErr (EFormatHandler (FhOutputBufferTooSmall (zlen x) (zlen out))), out, st)) /\
  (zlen x <= zlen out -> has_magic x && complete_headers x = false ->
     dds_transform_bundle show c v t x out st = Ok (RErr (EFormatHandler InvalidInputFileHeader), out, st)) /\
  (forall i, zlen x <= zlen out -> parse_dds (c_debug c) x = Ok (Some i) -> zlen x < need i ->
     dds_transform_bundle show c v t x out st = Ok (RErr (EFormatHandler (InputTooShortForStatedTextureSize (need i) (zlen x))), out, st)) /\
  (forall i e, zlen x <= zlen out -> parse_dds (c_debug c) x = Ok (Some i) -> need i <= zlen x -> refused (stated_format x) = Some e ->
     dds_transform_bundle show c v t x out st =
       Ok (RErr e, firstn (Z.to_nat (header_bytes x)) x ++ skipn (Z.to_nat (header_bytes x)) out, st)) /\
  (forall i f e y st', zlen x <= zlen out -> parse_dds (c_debug c) x = Ok (Some i) -> need i <= zlen x ->
     refused (stated_format x) = None -> block_format (stated_format x) = Some f ->
     dispatch_transform show c v t f (slice x (header_bytes x) (i_data_length i)) (slice out (header_bytes x) (i_data_length i)) st = Ok (RErr e, y, st') ->
     zlen y = i_data_length i ->
     dds_transform_bundle show c v t x out st =
       Ok (RErr e, firstn (Z.to_nat (header_bytes x)) x ++ y ++ skipn (Z.to_nat (need i)) out, st')).
Proof.
  intros St Er show c v t x out st HU need. destruct (transform_error_cases St Er show c v t x out st HU) as (A1 & A2 & A3 & A4).
  split; [exact A1|]. split; [exact A2|]. split; [exact A3|]. split; [intros i e L P S R; exact (A4 i e L P S (format_false _ _ R))|].
  clear A1 A2 A3 A4. intros i f e y st' L P S R B D HY.
  unfold dds_transform_bundle. replace (zlen out <? zlen x) with false by lia. rewrite P. cbn [bind].
  pose proof (parse_dds_spec (c_debug c) x) as Q. rewrite P in Q. destruct Q as (_ & _ & HF & HO & HN). unfold need in *. rewrite HO, HF.
  rewrite (format_accepted _ _ R B).
  assert (HB : 128 <= header_bytes x <= 148) by (unfold header_bytes; destruct (has_dx10 x); lia).
  set (h := header_bytes x) in *. set (n := i_data_length i) in *. clearbody h n. clear HO HF P R B.
  unfold usize_add. replace (h + n <=? usize_max v) with true by lia. cbn [bind]. replace (zlen x <? h + n) with false by lia.
  assert (SP : forall l : list byte, h + n <= zlen l -> l = firstn (Z.to_nat h) l ++ slice l h n ++ skipn (Z.to_nat (h + n)) l).
  { intros l Hl. unfold slice. rewrite Z2Nat.inj_add by lia. rewrite Nat.add_comm, <- skipn_skipn', firstn_skipn, firstn_skipn. reflexivity. }
  assert (LH : forall l : list byte, h + n <= zlen l -> zlen (firstn (Z.to_nat h) l) = h) by (intros l Hl; unfold zlen in *; rewrite firstn_length; lia).
  assert (LS : forall l : list byte, h + n <= zlen l -> zlen (slice l h n) = n) by (intros l Hl; apply zlen_slice; lia).
  assert (HX : h + n <= zlen x) by lia. assert (HT : h + n <= zlen out) by lia.
  assert (R1 : range x 0 h = Ok (firstn (Z.to_nat h) x)).
  { pose proof (SP x HX) as E. rewrite E at 1. apply range_head. exact (LH x HX). }
  rewrite R1. cbn [bind].
  assert (C1 : copy_range out 0 h (firstn (Z.to_nat h) x) = Ok (firstn (Z.to_nat h) x ++ slice out h n ++ skipn (Z.to_nat (h + n)) out)).
  { pose proof (SP out HT) as E. rewrite E at 1. apply copy_head; [exact (LH out HT)|]. rewrite (LH out HT), (LH x HX). reflexivity. }
  rewrite C1. cbn [bind].
  assert (R2 : range x h (h + n) = Ok (slice x h n)).
  { pose proof (SP x HX) as E. rewrite E at 1. apply range_mid; [exact (LH x HX)|]. rewrite (LS x HX). reflexivity. }
  rewrite R2. cbn [bind].
  rewrite range_mid by (rewrite ?(LH x HX), ?(LS out HT); reflexivity). cbn [bind]. rewrite D. cbn [bind]. f_equal. f_equal. f_equal. f_equal.
  unfold splice. pose proof (LH x HX) as L1. pose proof (LS out HT) as L2.
  assert (L1' : List.length (firstn (Z.to_nat h) x) = Z.to_nat h) by (unfold zlen in L1; lia).
  assert (L3 : List.length y = List.length (slice out h n)) by (unfold zlen in *; lia).
  clear - L1' L3. revert L1' L3. generalize (firstn (Z.to_nat h) x). intros a L1 L3. rewrite <- L1. rewrite firstn_app, firstn_all, Nat.sub_diag. cbn [firstn].
  rewrite app_nil_r, L3. f_equal. f_equal. rewrite Nat.add_comm, <- skipn_skipn'. rewrite skipn_app, skipn_all, Nat.sub_diag. cbn [app skipn].
  rewrite skipn_app, skipn_all, Nat.sub_diag. reflexivity.
Qed.
