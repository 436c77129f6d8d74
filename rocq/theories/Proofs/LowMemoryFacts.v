(** Facts about restoring textures when memory runs out. *)
From Verif Require Import Base.Bytes Base.Res Model.Color565 Model.Ycc Model.Kernel Model.GenBc1Scr Model.GenBeBc1Scr
  Model.Transform Model.Auto Model.Builders Model.Embed Model.Bundle Model.Dds Model.BeTransform Model.BeFiles Model.LowMemory Spec.LowMemory.
From Coq Require Import String ZifyBool.
Open Scope string_scope.
Open Scope list_scope.
Open Scope Z_scope.

Lemma bind_id (x : res mem) : (do m <- x ;; Ok m) = x.
Proof. destruct x; reflexivity. Qed.
Lemma range_le x a b t : Dds.range x a b = Ok t -> zlen t <= zlen x.
Proof.
  unfold Dds.range. destruct ((0 <=? a) && (a <=? b) && (b <=? zlen x)) eqn:E; intros H; inversion H; subst.
  rewrite zlen_slice by lia. lia.
Qed.
Lemma range_zlen x a b t : Dds.range x a b = Ok t -> zlen t = b - a.
Proof.
  unfold Dds.range. destruct ((0 <=? a) && (a <=? b) && (b <=? zlen x)) eqn:E; intros H; inversion H; subst.
  rewrite zlen_slice by lia. lia.
Qed.
Lemma usize_add_fits d v a b : 0 <= a -> 0 <= b -> a + b <= usize_max v -> usize_add d v a b = Ok (a + b).
Proof. intros A B C. unfold usize_add. replace (a + b <=? usize_max v) with true by lia. reflexivity. Qed.

Section Le.
Variable room : Z -> bool.
Lemma scr_within_eq c p0 p1 p2 o n v m :
  scr_within room c p0 p1 p2 o n v m =
  if negb (is_x86 c) && (128 <=? n) && negb (room (n * 8)) then Panic "Failed to allocate work buffer"
  else bc1_scr_u_untransform_with_split_colour_and_recorr c p0 p1 p2 o n v m.
Proof.
  unfold scr_within, bc1_scr_u_untransform_with_split_colour_and_recorr, generic_within. rewrite ?bind_id.
  destruct (is_x86 c); reflexivity.
Qed.
Lemma with_settings_within_eq c s x out : zlen x mod 8 = 0 ->
  untransform_bc1_with_settings_within room c (Ptr BIn 0) (Ptr BOut 0) (zlen x) s (Mem x [] out) =
  if needs_memory (is_x86 c) s (zlen x) && negb (room (zlen x)) then Panic "Failed to allocate work buffer"
  else untransform_bc1_with_settings c (Ptr BIn 0) (Ptr BOut 0) (zlen x) s (Mem x [] out).
Proof.
  intros M. unfold untransform_bc1_with_settings_within, untransform_bc1_with_settings, needs_memory.
  assert (D : debug_assert (c_debug c) (zlen x mod 8 =? 0) "len.is_multiple_of(8)" = Ok tt).
  { rewrite M. unfold debug_assert. destruct (c_debug c); reflexivity. }
  rewrite D. cbn [bind]. pose proof (zlen_nonneg _ x) as L0.
  destruct (split_colour_endpoints s); cbn [andb negb]; [|rewrite ?Bool.andb_false_r; reflexivity].
  assert (P : forall k, 0 <= k <= zlen x -> ptr_add (Mem x [] out) (Ptr BIn 0) k = Ok (Ptr BIn k)).
  { intros k K. unfold ptr_add. cbn [p_off p_buf buf_of]. cbn. replace ((0 <=? k) && (k <=? zlen x)) with true by lia. reflexivity. }
  rewrite (P (zlen x / 4)), (P (zlen x / 2)) by lia. cbn [bind].
  destruct (variant_eqb (decorrelation_mode s) VNone); cbn [andb negb]; [rewrite ?Bool.andb_false_r; reflexivity|].
  rewrite scr_within_eq. replace (zlen x / 8 * 8) with (zlen x) by lia. replace (1024 <=? zlen x) with (128 <=? zlen x / 8) by lia.
  rewrite ?Bool.andb_true_r. reflexivity.
Qed.
Lemma within_eq c s x out : zlen x mod 8 = 0 -> zlen x <= zlen out ->
  untransform_bc1_within room c s x out =
  if needs_memory (is_x86 c) s (zlen x) && negb (room (zlen x)) then Panic "Failed to allocate work buffer"
  else untransform_bc1 c s x out.
Proof.
  intros M L. unfold untransform_bc1_within, untransform_bc1, checked. rewrite M. cbn [negb Z.eqb].
  replace (zlen out <? zlen x) with false by lia. rewrite with_settings_within_eq by exact M.
  destruct (needs_memory _ _ _ && _); reflexivity.
Qed.
Lemma within_refused c s x out : zlen x mod 8 <> 0 \/ zlen out < zlen x -> untransform_bc1_within room c s x out = untransform_bc1 c s x out.
Proof.
  intros H. unfold untransform_bc1_within, untransform_bc1, checked. destruct (Z.eqb_spec (zlen x mod 8) 0); cbn [negb]; [|reflexivity].
  replace (zlen out <? zlen x) with true by lia. reflexivity.
Qed.
Definition short (c : cfg) (h : header) (x : list byte) : bool :=
  match header_format h with
  | Some FBc1 => match from_header bc1_details h with ROk s => (zlen x mod 8 =? 0) && (needs_memory (is_x86 c) s (zlen x) && negb (room (zlen x))) | RErr _ => false end
  | _ => false
  end.
Lemma dispatch_within_eq c h x out : 
  dispatch_untransform_within room c h x out =
  if (zlen x <=? zlen out) && short c h x then Panic "Failed to allocate work buffer"
  else dispatch_untransform c h x out.
Proof.
  unfold dispatch_untransform_within, dispatch_untransform, short. destruct (Z.ltb_spec (zlen out) (zlen x)) as [K|K].
  - replace (zlen x <=? zlen out) with false by lia. reflexivity.
  - replace (zlen x <=? zlen out) with true by lia. cbv zeta. cbn [andb].
    destruct (header_format h) as [[]|]; try reflexivity.
    destruct (from_header bc1_details h) as [s|e]; [|reflexivity]. cbn [codec_block].
    destruct (Z.eqb_spec (zlen x mod 8) 0) as [M|M]; cbn [negb andb]; [|reflexivity].
    rewrite with_settings_within_eq by exact M. destruct (needs_memory _ _ _ && _); reflexivity.
Qed.
Lemma dispatch_within_cases c h x out :
  dispatch_untransform_within room c h x out = dispatch_untransform c h x out \/
  (dispatch_untransform_within room c h x out = Panic "Failed to allocate work buffer" /\
   exists s, header_format h = Some FBc1 /\ from_header bc1_details h = ROk s /\ zlen x mod 8 = 0 /\
     needs_memory (is_x86 c) s (zlen x) = true /\ room (zlen x) = false).
Proof.
  rewrite dispatch_within_eq. destruct ((zlen x <=? zlen out) && short c h x) eqn:E; [|auto]. right. split; [reflexivity|].
  apply Bool.andb_true_iff in E. destruct E as [_ E]. unfold short in E.
  destruct (header_format h) as [[]|]; try discriminate E. destruct (from_header bc1_details h) as [s|]; [|discriminate E].
  exists s. apply Bool.andb_true_iff in E. destruct E as [E1 E]. apply Bool.andb_true_iff in E. destruct E as [E2 E3].
  split; [reflexivity|]. split; [reflexivity|]. split; [lia|]. split; [exact E2|]. destruct (room (zlen x)); [discriminate E3|reflexivity].
Qed.
Lemma dds_within_same c v x out :
  dds_untransform_within room c v x out = dds_untransform c v x out \/
  (dds_untransform_within room c v x out = Panic "Failed to allocate work buffer" /\
   exists s n, header_format (read_from_ptr x 0) = Some FBc1 /\ from_header bc1_details (read_from_ptr x 0) = ROk s /\
     n <= zlen x /\ needs_memory (is_x86 c) s n = true /\ room n = false).
Proof.
  unfold dds_untransform_within, dds_untransform.
  destruct (zlen x <? 4); [left; reflexivity|]. destruct (zlen out <? zlen x); [left; reflexivity|]. cbv zeta.
  destruct (parse_dds_ignore_magic (c_debug c) x) as [[i|]| |]; cbn [bind]; [|left; reflexivity..].
  destruct (usize_add (c_debug c) v (i_data_offset i) (i_data_length i)) as [e| |]; cbn [bind]; [|left; reflexivity..].
  destruct (zlen x <? e); [left; reflexivity|].
  destruct (copy_range out 0 4 (u32_bytes DDS_MAGIC)) as [o1| |]; cbn [bind]; [|left; reflexivity..].
  destruct (Dds.range x 4 (i_data_offset i)) as [hd| |]; cbn [bind]; [|left; reflexivity..].
  destruct (copy_range o1 4 (i_data_offset i) hd) as [o2| |]; cbn [bind]; [|left; reflexivity..].
  destruct (Dds.range x (i_data_offset i) e) as [t| |] eqn:T; cbn [bind]; [|left; reflexivity..].
  destruct (Dds.range o2 (i_data_offset i) e) as [g| |]; cbn [bind]; [|left; reflexivity..].
  destruct (dispatch_within_cases c (read_from_ptr x 0) t g) as [E|(E & s & F & D & _ & N & R)]; rewrite E.
  - left. reflexivity.
  - right. split; [reflexivity|]. exists s, (zlen t). split; [exact F|]. split; [exact D|]. split; [|split; [exact N|exact R]].
    pose proof (range_le _ _ _ _ T). lia.
Qed.
(** A file that is restored when there is memory. *)
Lemma dds_within_eq c v x out y s i :
  dds_untransform c v x out = Ok (ROk tt, y) ->
  header_format (read_from_ptr x 0) = Some FBc1 -> from_header bc1_details (read_from_ptr x 0) = ROk s ->
  parse_dds_ignore_magic (c_debug c) x = Ok (Some i) -> 0 <= i_data_offset i -> 0 <= i_data_length i -> i_data_offset i + i_data_length i <= usize_max v ->
  dds_untransform_within room c v x out =
  if needs_memory (is_x86 c) s (i_data_length i) && negb (room (i_data_length i)) then Panic "Failed to allocate work buffer" else Ok (ROk tt, y).
Proof.
  unfold dds_untransform_within, dds_untransform. intros H F D P O0 L0 B. revert H.
  destruct (zlen x <? 4); [intros H; discriminate H|]. destruct (zlen out <? zlen x); [intros H; discriminate H|]. cbv zeta.
  rewrite P. cbn [bind]. rewrite usize_add_fits by lia. cbn [bind].
  set (e := i_data_offset i + i_data_length i).
  destruct (zlen x <? e); [intros H; discriminate H|].
  destruct (copy_range out 0 4 (u32_bytes DDS_MAGIC)) as [o1| |]; cbn [bind]; try (intros H; discriminate H).
  destruct (Dds.range x 4 (i_data_offset i)) as [hd| |]; cbn [bind]; try (intros H; discriminate H).
  destruct (copy_range o1 4 (i_data_offset i) hd) as [o2| |]; cbn [bind]; try (intros H; discriminate H).
  destruct (Dds.range x (i_data_offset i) e) as [t| |] eqn:T; cbn [bind]; try (intros H; discriminate H).
  destruct (Dds.range o2 (i_data_offset i) e) as [g| |] eqn:G; cbn [bind]; try (intros H; discriminate H).
  pose proof (range_zlen _ _ _ _ T) as ZT. pose proof (range_zlen _ _ _ _ G) as ZG.
  replace (e - i_data_offset i) with (i_data_length i) in ZT, ZG by (unfold e; lia).
  rewrite dispatch_within_eq. replace (zlen t <=? zlen g) with true by lia. cbn [andb]. unfold short. rewrite F, D, ZT.
  destruct (Z.eqb_spec (i_data_length i mod 8) 0) as [M|M]; cbn [andb].
  - destruct (needs_memory _ _ _ && _); [reflexivity|]. intros H. exact H.
  - intros H. exfalso. unfold dispatch_untransform in H. rewrite F, D, ZT, ZG in H. cbv zeta in H.
    replace (i_data_length i <? i_data_length i) with false in H by lia. cbn [codec_block] in H.
    replace (i_data_length i mod 8 =? 0) with false in H by lia. discriminate H.
Qed.
End Le.

Section Be.
Variable room : Z -> bool.
Lemma be_scr_within_eq c p0 p1 p2 o n v m :
  be_scr_within room c p0 p1 p2 o n v m =
  if negb false && (128 <=? n) && negb (room (n * 8)) then Panic "Failed to allocate work buffer"
  else be_bc1_scr_u_untransform_with_split_colour_and_recorr c p0 p1 p2 o n v m.
Proof.
  unfold be_scr_within, be_bc1_scr_u_untransform_with_split_colour_and_recorr, be_generic_within. rewrite ?bind_id.
  reflexivity.
Qed.
Lemma be_with_settings_within_eq c s x out : zlen x mod 8 = 0 ->
  be_untransform_bc1_with_settings_within room c (Ptr BIn 0) (Ptr BOut 0) (zlen x) s (Mem x [] out) =
  if needs_memory false s (zlen x) && negb (room (zlen x)) then Panic "Failed to allocate work buffer"
  else be_untransform_bc1_with_settings c (Ptr BIn 0) (Ptr BOut 0) (zlen x) s (Mem x [] out).
Proof.
  intros M. unfold be_untransform_bc1_with_settings_within, be_untransform_bc1_with_settings, needs_memory.
  assert (D : debug_assert (c_debug c) (zlen x mod 8 =? 0) "len.is_multiple_of(8)" = Ok tt).
  { rewrite M. unfold debug_assert. destruct (c_debug c); reflexivity. }
  rewrite D. cbn [bind]. pose proof (zlen_nonneg _ x) as L0.
  destruct (split_colour_endpoints s); cbn [andb negb]; [|rewrite ?Bool.andb_false_r; reflexivity].
  assert (P : forall k, 0 <= k <= zlen x -> ptr_add (Mem x [] out) (Ptr BIn 0) k = Ok (Ptr BIn k)).
  { intros k K. unfold ptr_add. cbn [p_off p_buf buf_of]. cbn. replace ((0 <=? k) && (k <=? zlen x)) with true by lia. reflexivity. }
  rewrite (P (zlen x / 4)), (P (zlen x / 2)) by lia. cbn [bind].
  destruct (variant_eqb (decorrelation_mode s) VNone); cbn [andb negb]; [rewrite ?Bool.andb_false_r; reflexivity|].
  rewrite be_scr_within_eq. replace (zlen x / 8 * 8) with (zlen x) by lia. replace (1024 <=? zlen x) with (128 <=? zlen x / 8) by lia.
  rewrite ?Bool.andb_true_r. reflexivity.
Qed.
Lemma be_within_eq c s x out : zlen x mod 8 = 0 -> zlen x <= zlen out ->
  be_untransform_bc1_within room c s x out =
  if needs_memory false s (zlen x) && negb (room (zlen x)) then Panic "Failed to allocate work buffer"
  else be_untransform_bc1 c s x out.
Proof.
  intros M L. unfold be_untransform_bc1_within, be_untransform_bc1, checked. rewrite M. cbn [negb Z.eqb].
  replace (zlen out <? zlen x) with false by lia. rewrite be_with_settings_within_eq by exact M.
  destruct (needs_memory _ _ _ && _); reflexivity.
Qed.
Lemma be_within_refused c s x out : zlen x mod 8 <> 0 \/ zlen out < zlen x -> be_untransform_bc1_within room c s x out = be_untransform_bc1 c s x out.
Proof.
  intros H. unfold be_untransform_bc1_within, be_untransform_bc1, checked. destruct (Z.eqb_spec (zlen x mod 8) 0); cbn [negb]; [|reflexivity].
  replace (zlen out <? zlen x) with true by lia. reflexivity.
Qed.
Definition be_short (c : cfg) (h : header) (x : list byte) : bool :=
  match header_format h with
  | Some FBc1 => match from_header bc1_details h with ROk s => (zlen x mod 8 =? 0) && (needs_memory false s (zlen x) && negb (room (zlen x))) | RErr _ => false end
  | _ => false
  end.
Lemma be_dispatch_within_eq c h x out : 
  be_dispatch_untransform_within room c h x out =
  if (zlen x <=? zlen out) && be_short c h x then Panic "Failed to allocate work buffer"
  else be_dispatch_untransform c h x out.
Proof.
  unfold be_dispatch_untransform_within, be_dispatch_untransform, be_short. destruct (Z.ltb_spec (zlen out) (zlen x)) as [K|K].
  - replace (zlen x <=? zlen out) with false by lia. reflexivity.
  - replace (zlen x <=? zlen out) with true by lia. cbv zeta. cbn [andb].
    destruct (header_format h) as [[]|]; try reflexivity.
    destruct (from_header bc1_details h) as [s|e]; [|reflexivity]. cbn [codec_block].
    destruct (Z.eqb_spec (zlen x mod 8) 0) as [M|M]; cbn [negb andb]; [|reflexivity].
    rewrite be_with_settings_within_eq by exact M. destruct (needs_memory _ _ _ && _); reflexivity.
Qed.
Lemma be_dispatch_within_cases c h x out :
  be_dispatch_untransform_within room c h x out = be_dispatch_untransform c h x out \/
  (be_dispatch_untransform_within room c h x out = Panic "Failed to allocate work buffer" /\
   exists s, header_format h = Some FBc1 /\ from_header bc1_details h = ROk s /\ zlen x mod 8 = 0 /\
     needs_memory false s (zlen x) = true /\ room (zlen x) = false).
Proof.
  rewrite be_dispatch_within_eq. destruct ((zlen x <=? zlen out) && be_short c h x) eqn:E; [|auto]. right. split; [reflexivity|].
  apply Bool.andb_true_iff in E. destruct E as [_ E]. unfold be_short in E.
  destruct (header_format h) as [[]|]; try discriminate E. destruct (from_header bc1_details h) as [s|]; [|discriminate E].
  exists s. apply Bool.andb_true_iff in E. destruct E as [E1 E]. apply Bool.andb_true_iff in E. destruct E as [E2 E3].
  split; [reflexivity|]. split; [reflexivity|]. split; [lia|]. split; [exact E2|]. destruct (room (zlen x)); [discriminate E3|reflexivity].
Qed.
Lemma be_dds_within_same c v x out :
  be_dds_untransform_within room c v x out = be_dds_untransform c v x out \/
  (be_dds_untransform_within room c v x out = Panic "Failed to allocate work buffer" /\
   exists s n, header_format (read_from_ptr x 0) = Some FBc1 /\ from_header bc1_details (read_from_ptr x 0) = ROk s /\
     n <= zlen x /\ needs_memory false s n = true /\ room n = false).
Proof.
  unfold be_dds_untransform_within, be_dds_untransform.
  destruct (zlen x <? 4); [left; reflexivity|]. destruct (zlen out <? zlen x); [left; reflexivity|]. cbv zeta.
  destruct (parse_dds_ignore_magic (c_debug c) x) as [[i|]| |]; cbn [bind]; [|left; reflexivity..].
  destruct (usize_add (c_debug c) v (i_data_offset i) (i_data_length i)) as [e| |]; cbn [bind]; [|left; reflexivity..].
  destruct (zlen x <? e); [left; reflexivity|].
  destruct (copy_range out 0 4 (u32_bytes DDS_MAGIC)) as [o1| |]; cbn [bind]; [|left; reflexivity..].
  destruct (Dds.range x 4 (i_data_offset i)) as [hd| |]; cbn [bind]; [|left; reflexivity..].
  destruct (copy_range o1 4 (i_data_offset i) hd) as [o2| |]; cbn [bind]; [|left; reflexivity..].
  destruct (Dds.range x (i_data_offset i) e) as [t| |] eqn:T; cbn [bind]; [|left; reflexivity..].
  destruct (Dds.range o2 (i_data_offset i) e) as [g| |]; cbn [bind]; [|left; reflexivity..].
  destruct (be_dispatch_within_cases c (read_from_ptr x 0) t g) as [E|(E & s & F & D & _ & N & R)]; rewrite E.
  - left. reflexivity.
  - right. split; [reflexivity|]. exists s, (zlen t). split; [exact F|]. split; [exact D|]. split; [|split; [exact N|exact R]].
    pose proof (range_le _ _ _ _ T). lia.
Qed.
(** A file that is restored when there is memory. *)
Lemma be_dds_within_eq c v x out y s i :
  be_dds_untransform c v x out = Ok (ROk tt, y) ->
  header_format (read_from_ptr x 0) = Some FBc1 -> from_header bc1_details (read_from_ptr x 0) = ROk s ->
  parse_dds_ignore_magic (c_debug c) x = Ok (Some i) -> 0 <= i_data_offset i -> 0 <= i_data_length i -> i_data_offset i + i_data_length i <= usize_max v ->
  be_dds_untransform_within room c v x out =
  if needs_memory false s (i_data_length i) && negb (room (i_data_length i)) then Panic "Failed to allocate work buffer" else Ok (ROk tt, y).
Proof.
  unfold be_dds_untransform_within, be_dds_untransform. intros H F D P O0 L0 B. revert H.
  destruct (zlen x <? 4); [intros H; discriminate H|]. destruct (zlen out <? zlen x); [intros H; discriminate H|]. cbv zeta.
  rewrite P. cbn [bind]. rewrite usize_add_fits by lia. cbn [bind].
  set (e := i_data_offset i + i_data_length i).
  destruct (zlen x <? e); [intros H; discriminate H|].
  destruct (copy_range out 0 4 (u32_bytes DDS_MAGIC)) as [o1| |]; cbn [bind]; try (intros H; discriminate H).
  destruct (Dds.range x 4 (i_data_offset i)) as [hd| |]; cbn [bind]; try (intros H; discriminate H).
  destruct (copy_range o1 4 (i_data_offset i) hd) as [o2| |]; cbn [bind]; try (intros H; discriminate H).
  destruct (Dds.range x (i_data_offset i) e) as [t| |] eqn:T; cbn [bind]; try (intros H; discriminate H).
  destruct (Dds.range o2 (i_data_offset i) e) as [g| |] eqn:G; cbn [bind]; try (intros H; discriminate H).
  pose proof (range_zlen _ _ _ _ T) as ZT. pose proof (range_zlen _ _ _ _ G) as ZG.
  replace (e - i_data_offset i) with (i_data_length i) in ZT, ZG by (unfold e; lia).
  rewrite be_dispatch_within_eq. replace (zlen t <=? zlen g) with true by lia. cbn [andb]. unfold be_short. rewrite F, D, ZT.
  destruct (Z.eqb_spec (i_data_length i mod 8) 0) as [M|M]; cbn [andb].
  - destruct (needs_memory _ _ _ && _); [reflexivity|]. intros H. exact H.
  - intros H. exfalso. unfold be_dispatch_untransform in H. rewrite F, D, ZT, ZG in H. cbv zeta in H.
    replace (i_data_length i <? i_data_length i) with false in H by lia. cbn [codec_block] in H.
    replace (i_data_length i mod 8 =? 0) with false in H by lia. discriminate H.
Qed.
End Be.
