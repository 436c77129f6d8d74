(** The debug functions on files. *)
From Verif Require Import Base.Bytes Base.Res Model.Color565 Model.Kernel Model.Transform Model.Auto Model.Embed Model.Bundle Model.Dds
  Model.Handlers Model.Cli Model.Decode Model.Inspect Spec.Layout Spec.Files Spec.Dds Spec.Pixels Spec.Inspect
  Proofs.DdsFacts Proofs.DdsHandler Proofs.DdsMore Proofs.DecodeFacts Proofs.InspectFacts.
From Coq Require Import Ascii String.
Open Scope list_scope.
Open Scope Z_scope.

(** ** Textures are whole blocks *)
Lemma mul_mod : forall d a b n k, (k = 8 \/ k = 16) -> 0 <= a -> 0 <= b -> u32_mul d a b = Ok n -> b mod k = 0 -> n mod k = 0 /\ 0 <= n.
Proof.
  intros d a b n k Hk Ha Hb H M. assert (P : a * b mod k = 0) by (rewrite Z.mul_mod, M, Z.mul_0_r by lia; destruct Hk as [->| ->]; reflexivity).
  unfold u32_mul in H. destruct (a * b <? 2 ^ 32); [injection H as <-; split; [exact P|nia]|]. destruct d; [discriminate|].
  assert (n = a * b mod 2 ^ 32) as -> by congruence. split; [|apply Z.mod_pos_bound; lia].
  set (q := a * b) in *. clearbody q. change (2 ^ 32) with 4294967296. clear - P Hk. destruct Hk as [->| ->]; lia.
Qed.
Lemma mul_range : forall d a b n, 0 <= a -> 0 <= b -> u32_mul d a b = Ok n -> 0 <= n.
Proof.
  intros d a b n Ha Hb H. unfold u32_mul in H. destruct (a * b <? 2 ^ 32); [injection H as <-; nia|]. destruct d; [discriminate|].
  assert (n = a * b mod 2 ^ 32) as -> by congruence. apply Z.mod_pos_bound; lia.
Qed.
Lemma mip_mod : forall f k n w h total s, (k = 8 \/ k = 16) -> (forall w h s, 0 <= w -> 0 <= h -> f w h = Ok s -> s mod k = 0 /\ 0 <= s) ->
  0 <= w -> 0 <= h -> total mod k = 0 \/ total = 2 ^ 32 - 1 -> mip_levels n f w h total = Ok s -> s mod k = 0 \/ s = 2 ^ 32 - 1.
Proof.
  intros f k n. induction n as [|n IH]; intros w h total s Hk Hf Hw Hh Ht E; cbn [mip_levels] in E; [injection E as <-; exact Ht|].
  destruct (f w h) as [p| |] eqn:F; cbn [bind] in E; try discriminate. destruct (Hf w h p Hw Hh F) as [P1 P2].
  apply IH in E; [exact E|exact Hk|exact Hf|clear - Hw; lia|clear - Hh; lia|]. clear - Hk P1 P2 Ht. unfold u32_saturating_add. set (top := 2 ^ 32 - 1) in *.
  assert (C : total + p <= top \/ top < total + p) by lia. destruct C as [C|C]; [|right; apply Z.min_r; lia]. rewrite Z.min_l by exact C.
  destruct Ht as [Ht| ->]; [|right; lia]. left. clearbody top. clear C. rewrite Z.add_mod by (destruct Hk; lia). rewrite Ht, P1. destruct Hk as [->| ->]; reflexivity.
Qed.
Lemma run_length_blocks : forall d data n k, block_bytes (stated_format data) = Some k -> run_length d data = Ok n -> n mod k = 0 \/ n = 2 ^ 32 - 1.
Proof.
  intros d data n k B H. assert (L : level_of data = Blocks k /\ (k = 8 \/ k = 16)).
  { unfold level_of. destruct (stated_format data); try discriminate B; injection B as <-; auto. }
  destruct L as [L Hk]. unfold run_length in H. rewrite L in H.
  pose proof (word_bound data 16). pose proof (word_bound data 12).
  eapply mip_mod; [exact Hk| | | | |exact H]; [|lia|lia|left; destruct Hk as [->| ->]; reflexivity].
  intros w h s Hw Hh E. unfold run_level, blvl in E. destruct (u32_mul d (div_ceil w 4) (div_ceil h 4)) as [p| |] eqn:F; cbn [bind] in E; try discriminate.
  rewrite !div_ceil_spec in F by lia. apply mul_range in F; [|apply Z.div_pos; lia|apply Z.div_pos; lia].
  eapply mul_mod; [exact Hk|exact F| |exact E|]; destruct Hk as [->| ->]; [lia|lia|reflexivity|reflexivity].
Qed.

Theorem whole_blocks : forall (debug : bool) (data : list byte) (i : dds_info) (k : Z),
  parse_dds debug data = Ok (Some i) -> block_bytes (i_format i) = Some k -> i_data_length i mod k = 0 \/ i_data_length i = 2 ^ 32 - 1.
Proof.
  intros debug data i k P B. rewrite parse_eq in P. destruct (has_magic data && complete_headers data); [|discriminate].
  destruct (run_length debug data) as [n| |] eqn:R; cbn [bind] in P; try discriminate. injection P as <-. cbn [i_format i_data_length] in *.
  exact (run_length_blocks debug data n k B R).
Qed.

(** ** Which handler looks into a file *)
Section Handlers.
Context {T : Type}.
Variables (ext : path -> option string) (o : io) (p : path) (hs : list inspector) (fl : format_filter) (fs : files).

Theorem extract_unreadable : forall (test_fn : list byte -> transform_format -> T -> res (result unit transform_error * T)) (t : T),
  fs p = None \/ open_ok o p = false \/ map_ok o p = false ->
  extract_blocks_from_file_format ext o p hs fl test_fn fs t = Ok (RErr FIo, t) /\ get_transform_format ext o p hs fl fs = Ok (RErr FIo).
Proof.
  intros test_fn t H. unfold extract_blocks_from_file_format, get_transform_format, map_input.
  destruct (fs p) as [d|]; [|split; reflexivity]. destruct H as [H|[H|H]]; [discriminate|rewrite H..]; [|rewrite Bool.andb_false_r]; split; reflexivity.
Qed.

Theorem extract_first : forall data h (test_fn : list byte -> transform_format -> T -> res (result unit transform_error * T)) (t : T),
  fs p = Some data -> open_ok o p = true -> map_ok o p = true -> first_to_accept data (ext p) hs h ->
  extract_blocks_from_file_format ext o p hs fl test_fn fs t =
    match n_extract h data fl with
    | Ok (ROk (Some (blocks, format))) =>
        match test_fn blocks format t with
        | Ok (ROk _, t1) => Ok (ROk tt, t1)
        | Ok (RErr e, t1) => Ok (RErr (FTransform e), t1)
        | Panic why => Panic why
        | Ub why => Ub why
        end
    | Ok (ROk None) => Ok (RErr (FTransform NoSupportedHandler), t)
    | Ok (RErr e) => Ok (RErr (FTransform e), t)
    | Panic why => Panic why
    | Ub why => Ub why
    end /\
  get_transform_format ext o p hs fl fs =
    match n_format h data fl with
    | Ok (ROk f) => Ok (ROk f)
    | Ok (RErr e) => Ok (RErr (FTransform e))
    | Panic why => Panic why
    | Ub why => Ub why
    end.
Proof.
  intros data h test_fn t E1 E2 E3 (earlier & later & -> & D & A).
  unfold extract_blocks_from_file_format, get_transform_format, map_input. rewrite E1, E2, E3. cbn [andb].
  induction D as [|g earlier G D IH]; cbn [app extract_loop format_loop].
  - rewrite A. cbn [bind]. split.
    + destruct (n_extract h data fl) as [[[[b f]|]|e]| |]; cbn [bind]; try reflexivity. destruct (test_fn b f t) as [[[u|e] t1]| |]; reflexivity.
    + destruct (n_format h data fl) as [[f|e]| |]; reflexivity.
  - rewrite G. cbn [bind]. exact IH.
Qed.

Theorem extract_nobody : forall data (test_fn : list byte -> transform_format -> T -> res (result unit transform_error * T)) (t : T),
  fs p = Some data -> open_ok o p = true -> map_ok o p = true -> Forall (fun g => n_can_handle g data (ext p) = Ok false) hs ->
  extract_blocks_from_file_format ext o p hs fl test_fn fs t = Ok (RErr (FTransform NoSupportedHandler), t) /\
  get_transform_format ext o p hs fl fs = Ok (ROk None).
Proof.
  intros data test_fn t E1 E2 E3 D. unfold extract_blocks_from_file_format, get_transform_format, map_input. rewrite E1, E2, E3. cbn [andb].
  induction D as [|g l G D IH]; cbn [extract_loop format_loop]; [split; reflexivity|]. rewrite G. cbn [bind]. exact IH.
Qed.
End Handlers.

(** ** Whatever goes wrong in a debug command's own test is not told *)
Theorem debug_errors_hidden : forall (T : Type) ext o hs p fl fs data h blocks format
    (test_fn : list byte -> transform_format -> T -> res (result unit debug_error * T)) (t t1 : T) e,
  fs p = Some data -> open_ok o p = true -> map_ok o p = true -> first_to_accept data (ext p) hs h ->
  n_extract h data fl = Ok (ROk (Some (blocks, format))) -> test_fn blocks format t = Ok (RErr e, t1) ->
  extract_blocks_from_file ext o hs p fl test_fn fs t = Ok (RErr (DFile (FTransform NoSupportedHandler)), t1) /\
  handle_debug_error (RErr (DFile (FTransform NoSupportedHandler))) = false.
Proof.
  intros T ext o hs p fl fs data h blocks format test_fn t t1 e E1 E2 E3 A X F. split; [|reflexivity].
  unfold extract_blocks_from_file.
  destruct (extract_first ext o p hs fl fs data h (fun data f t => do a <- test_fn data f t ;;
                     Ok (match fst a with ROk _ => ROk tt | RErr _ => RErr NoSupportedHandler end, snd a)) t E1 E2 E3 A) as [-> _].
  rewrite X, F. reflexivity.
Qed.

(** ** The names of filters *)
Theorem filter_names : forall s f,
  filter_from_str s = Some f <->
  In (to_lowercase s, f) [("bc1", OnlyFormat FBc1); ("bc2", OnlyFormat FBc2); ("bc3", OnlyFormat FBc3); ("bc4", OnlyFormat FBc4); ("bc5", OnlyFormat FBc5);
    ("bc7", OnlyFormat FBc7); ("bc6h", OnlyFormat FBc6H); ("rgba8888", OnlyFormat FRgba8888); ("bgra8888", OnlyFormat FBgra8888);
    ("bgr888", OnlyFormat FBgr888); ("all", AllFormats)]%string.
Proof.
  intros s f. unfold filter_from_str. generalize (to_lowercase s). clear s. intros s. split.
  - intros H. repeat match type of H with
      | (match ?x with EmptyString => _ | String _ _ => _ end) = _ => destruct x; try discriminate H
      | (match ?x with Ascii _ _ _ _ _ _ _ _ => _ end) = _ => destruct x; try discriminate H
      | (match ?x with true => _ | false => _ end) = _ => destruct x; try discriminate H
      end; injection H as <-; cbn [In]; tauto.
  - cbn [In]. intros H. repeat match type of H with _ \/ _ => destruct H as [H|H] end; try (injection H as <- <-; reflexivity). destruct H.
Qed.

Theorem filter_meaning : forall fl f, filter_accepts fl f = true <-> fl = AllFormats \/ fl = OnlyFormat f.
Proof.
  intros [g|] f; cbn [filter_accepts]; [|split; auto]. split.
  - intros H. right. destruct g, f; first [reflexivity|discriminate H].
  - intros [H|H]; [discriminate|]. injection H as ->. destruct f; reflexivity.
Qed.

(** ** The round trip commands *)
Section Commands.
Variables (c : cfg) (v : env) (fresh : Z -> list byte).
Hypotheses (K : supported c) (F : forall n, 0 <= n -> zlen (fresh n) = n).

Theorem roundtrip_passes : forall data, (c_debug c = true -> data <> []) -> alloc_ok v (zlen data) = true ->
  (zlen data mod 8 = 0 -> test_bc1_roundtrip c v fresh data = Ok (ROk tt)) /\
  (zlen data mod 16 = 0 -> test_bc2_roundtrip c v fresh data = Ok (ROk tt) /\ test_bc3_roundtrip c v fresh data = Ok (ROk tt)).
Proof.
  intros data HD HA. split; [intros M|intros M; split].
  - exact (test_passes v fresh 8 _ _ decode_bc1_block bc1_pixel eq_refl bc1_decode all_settings data (fun s => bc1_works c fresh data K F s M HD) HA).
  - exact (test_passes v fresh 16 _ _ decode_bc2_block bc2_pixel eq_refl bc2_decode all_settings data (fun s => bc2_works c fresh data K F s M) HA).
  - exact (test_passes v fresh 16 _ _ decode_bc3_block bc3_pixel eq_refl bc3_decode all_settings3 data (fun s => bc3_works c fresh data K F s M HD) HA).
Qed.

Lemma parsed_handled : forall debug data i ext, parse_dds debug data = Ok (Some i) -> ext = None \/ ext = Some "dds"%string ->
  dds_can_handle debug data ext = Ok true.
Proof. intros debug data i ext P [->| ->]; unfold dds_can_handle; cbn; rewrite P; reflexivity. Qed.

Theorem roundtrip_file : forall k ext o p fs, k = 1 \/ k = 2 \/ k = 3 -> 2 ^ 32 + 147 <= usize_max v ->
  testable (c_debug c) v o ext p fs (tested_format k) -> test_roundtrip_file c v fresh k ext o p fs = Ok (ROk tt).
Proof.
  intros k ext o p fs Hk HU (E2 & E3 & X & data & i & E1 & P & Fm & [L1 L2] & A & D).
  assert (FA : first_to_accept data ext (all_inspectors (c_debug c) v) (dds_inspector (c_debug c) v)).
  { exists [], []. split; [reflexivity|]. split; [constructor|]. cbn [n_can_handle dds_inspector]. eapply parsed_handled; eassumption. }
  pose proof (parse_facts _ _ _ (proj2 (parse_dds_facts _ _ _ P))) as (_ & _ & _ & _ & Hn & Ho & _).
  assert (B : exists b, block_bytes (i_format i) = Some b /\ (b = if k =? 1 then 8 else 16)).
  { rewrite Fm. destruct Hk as [->|[->| ->]]; eexists; split; reflexivity. }
  destruct B as (b & B & Eb). assert (M : i_data_length i mod b = 0) by (destruct (whole_blocks _ _ _ _ P B) as [H|H]; [exact H|lia]).
  set (blocks := slice data (i_data_offset i) (i_data_length i)).
  assert (LB : zlen blocks = i_data_length i) by (unfold blocks, slice, zlen in *; rewrite firstn_length, skipn_length; lia).
  assert (XB : exists f, dds_extract_blocks (c_debug c) v data (roundtrip_filter k) = Ok (ROk (Some (blocks, f)))).
  { rewrite (extract_eq _ _ _ _ _ HU P). rewrite Fm. replace (i_data_offset i + i_data_length i <=? zlen data) with true by lia.
    destruct Hk as [->|[->| ->]]; cbn; eexists; reflexivity. }
  destruct XB as (f & XB).
  assert (NE : c_debug c = true -> blocks <> []).
  { intros Hd. specialize (D Hd). rewrite <- LB in D. intros Q. rewrite Q in D. cbn in D. lia. }
  rewrite <- LB in A, M. destruct (roundtrip_passes blocks NE A) as [R1 R2].
  assert (T : test_roundtrip c v fresh k blocks = Ok (ROk tt)).
  { unfold test_roundtrip. clear - Hk Eb M R1 R2. destruct Hk as [->|[->| ->]].
    - change (1 =? 1) with true in *. cbv iota in Eb |- *. subst b. exact (R1 M).
    - change (2 =? 1) with false in *. change (2 =? 2) with true. cbv iota in Eb |- *. subst b. exact (proj1 (R2 M)).
    - change (3 =? 1) with false in *. change (3 =? 2) with false. cbv iota in Eb |- *. subst b. exact (proj2 (R2 M)). }
  unfold test_roundtrip_file, extract_blocks_from_file.
  match goal with |- context[extract_blocks_from_file_format ?e ?oo ?pp ?hs ?fl ?tf ?ff ?tt0] =>
    destruct (extract_first e oo pp hs fl ff data (dds_inspector (c_debug c) v) tf tt0 E1 E2 E3 FA) as [-> _] end.
  cbn [n_extract dds_inspector]. rewrite XB, T. reflexivity.
Qed.

(** A file that is not a texture of the format does not pass. *)
Theorem roundtrip_passed : forall k ext o p fs, k = 1 \/ k = 2 \/ k = 3 -> 2 ^ 32 + 147 <= usize_max v ->
  test_roundtrip_file c v fresh k ext o p fs = Ok (ROk tt) ->
  exists data i, fs p = Some data /\ open_ok o p = true /\ map_ok o p = true /\ (ext = None \/ ext = Some "dds"%string) /\
    parse_dds (c_debug c) data = Ok (Some i) /\ i_format i = tested_format k /\ i_data_offset i + i_data_length i <= zlen data.
Proof using.
  clear K F. intros k ext o p fs Hk HU H. unfold test_roundtrip_file, extract_blocks_from_file, extract_blocks_from_file_format, map_input in H.
  destruct (fs p) as [data|]; [|discriminate H]. destruct (open_ok o p); [|discriminate H]. destruct (map_ok o p); [|discriminate H]. cbn [andb] in H.
  cbn [all_inspectors extract_loop n_can_handle dds_inspector] in H. unfold dds_can_handle in H.
  assert (X : ext = None \/ ext = Some "dds"%string \/ forall i, (match ext with Some e => if String.eqb e "dds" then i else Ok false | None => i end) = Ok false).
  { destruct ext as [e|]; [|auto]. destruct (String.eqb e "dds") eqn:E; [apply String.eqb_eq in E; subst; auto|auto]. }
  destruct (parse_dds (c_debug c) data) as [[i|]| |] eqn:P.
  - exists data, i.
    assert (G : (ext = None \/ ext = Some "dds"%string) /\ exists blocks f, dds_extract_blocks (c_debug c) v data (roundtrip_filter k) = Ok (ROk (Some (blocks, f)))).
    { destruct (dds_extract_blocks (c_debug c) v data (roundtrip_filter k)) as [[[[b f]|]|e]| |] eqn:XB; cbn [n_extract dds_inspector] in H; try rewrite XB in H;
        (destruct X as [->|[->|X]]; [split; auto|split; auto|]); cbn in H; try discriminate H; try (do 2 eexists; reflexivity);
        try (destruct ext as [e0|]; [|specialize (X (Ok true)); discriminate X]; specialize (X (Ok true)); cbn in H;
             destruct (String.eqb e0 "dds"); [discriminate X|cbn in H; discriminate H]). }
    destruct G as [G1 (blocks & f & XB)]. destruct (extract_inside (c_debug c) v data (roundtrip_filter k) blocks f ltac:(lia) XB) as (i2 & P2 & Ff & FA & L & _).
    rewrite P in P2. injection P2 as <-. repeat (split; [solve [reflexivity|exact G1|exact P]|]). split; [|exact L].
    unfold roundtrip_filter in FA. apply filter_meaning in FA. destruct FA as [FA|FA]; [discriminate|]. injection FA as FA.
    destruct Hk as [->|[->| ->]]; cbn in FA; subst f; destruct (i_format i); cbn in Ff; try discriminate Ff; reflexivity.
  - exfalso. destruct X as [->|[->|X]]; cbn in H; try discriminate H. destruct ext as [e0|]; [|specialize (X (Ok true)); discriminate X].
    specialize (X (Ok true)). cbn in H. destruct (String.eqb e0 "dds"); [discriminate X|cbn in H; discriminate H].
  - exfalso. destruct X as [->|[->|X]]; cbn in H; try discriminate H. destruct ext as [e0|]; [|specialize (X (Ok true)); discriminate X].
    specialize (X (Ok true)). cbn in H. destruct (String.eqb e0 "dds"); [discriminate X|cbn in H; discriminate H].
  - exfalso. destruct X as [->|[->|X]]; cbn in H; try discriminate H. destruct ext as [e0|]; [|specialize (X (Ok true)); discriminate X].
    specialize (X (Ok true)). cbn in H. destruct (String.eqb e0 "dds"); [discriminate X|cbn in H; discriminate H].
Qed.

(** The command ends well exactly if every file it finds passes. *)
Lemma test_files_count : forall k utf8 o fs entries tested passed n m, test_files c v fresh k utf8 o entries fs tested passed = Ok (n, m) ->
  n = tested + zlen entries /\ m - passed <= zlen entries /\
  (m - passed = zlen entries <-> Forall (fun p => test_roundtrip_file c v fresh k (extract_lowercase_extension utf8 p) o (render p) fs = Ok (ROk tt)) entries).
Proof using.
  clear K F. intros k utf8 o fs. induction entries as [|p l IH]; intros tested passed n m H; cbn [test_files] in H.
  - injection H as <- <-. change (zlen (@nil components)) with 0. split; [lia|]. split; [lia|]. split; [constructor|lia].
  - destruct (test_roundtrip_file c v fresh k (extract_lowercase_extension utf8 p) o (render p) fs) as [r| |] eqn:R; cbn [bind] in H; try discriminate H.
    apply IH in H. destruct H as (-> & L & E). assert (Z1 : zlen (p :: l) = zlen l + 1) by (unfold zlen; cbn [List.length]; lia). rewrite Z1.
    destruct r as [[]|e].
    + split; [lia|]. split; [lia|]. split.
      * intros Q. constructor; [exact R|]. apply E. lia.
      * intros Q. inversion Q; subst. assert (m - (passed + 1) = zlen l) by (apply E; assumption). lia.
    + split; [lia|]. split; [lia|]. split; [intros Q; lia|]. intros Q. inversion Q as [|? ? Q1]; subst. rewrite R in Q1. discriminate Q1.
Qed.
Theorem command_result : forall k utf8 o fs entries r, handle_roundtrip_command c v fresh k utf8 o entries fs = Ok r ->
  (r = ROk tt <-> Forall (fun p => test_roundtrip_file c v fresh k (extract_lowercase_extension utf8 p) o (render p) fs = Ok (ROk tt)) entries).
Proof using.
  clear K F. intros k utf8 o fs entries r H. unfold handle_roundtrip_command in H.
  destruct (test_files c v fresh k utf8 o entries fs 0 0) as [[n m]| |] eqn:T; cbn [bind fst snd] in H; try discriminate H. injection H as <-.
  apply test_files_count in T. destruct T as (-> & L & E). rewrite <- E. destruct (m =? 0 + zlen entries) eqn:Q; (split; [|]); intros; try lia; try reflexivity; discriminate.
Qed.
Theorem command_passes : forall k utf8 o fs entries, k = 1 \/ k = 2 \/ k = 3 -> 2 ^ 32 + 147 <= usize_max v ->
  Forall (fun p => testable (c_debug c) v o (extract_lowercase_extension utf8 p) (render p) fs (tested_format k)) entries ->
  handle_roundtrip_command c v fresh k utf8 o entries fs = Ok (ROk tt).
Proof.
  intros k utf8 o fs entries Hk HU H.
  assert (G : forall l n m, Forall (fun p => testable (c_debug c) v o (extract_lowercase_extension utf8 p) (render p) fs (tested_format k)) l ->
    test_files c v fresh k utf8 o l fs n m = Ok (n + zlen l, m + zlen l)).
  { induction l as [|p l IH]; intros n m Hl; cbn [test_files].
    - change (zlen (@nil components)) with 0. rewrite !Z.add_0_r. reflexivity.
    - inversion Hl; subst. rewrite roundtrip_file by assumption. cbn [bind]. rewrite IH by assumption.
      assert (Z1 : zlen (p :: l) = zlen l + 1) by (unfold zlen; cbn [List.length]; lia). rewrite Z1. f_equal. f_equal; lia. }
  unfold handle_roundtrip_command. rewrite G by exact H. cbn [bind fst snd]. rewrite Z.eqb_refl. reflexivity.
Qed.
End Commands.

(** What a round trip test decides about any transform. *)
Theorem test_decides : forall (S : Type) (v : env) (fresh : Z -> list byte) (k : Z) (transform untransform : Z -> S -> mem -> res mem)
    (decode : list byte -> res (list color8888)) (pixel : list byte -> nat -> color8888) (l : list S) (data : list byte) (y : S -> list byte),
  0 < k -> (forall b, k <= zlen b -> decode b = Ok (picture pixel b)) -> alloc_ok v (zlen data) = true ->
  (forall s, In s l -> exists m m2, transform (zlen data) s (Mem data [] (fresh (zlen data))) = Ok m /\
     untransform (zlen data) s (Mem (m_out m) [] (fresh (zlen data))) = Ok m2 /\ m_out m2 = y s /\ zlen (y s) = zlen data) ->
  exists r, test_settings v fresh k transform untransform decode l data = Ok r /\
    (r = ROk tt <-> forall s, In s l -> forall i, 0 <= i < zlen data / k -> picture pixel (slice data (i * k) k) = picture pixel (slice (y s) (i * k) k)).
Proof.
  intros S v fresh k transform untransform decode pixel l data y Hk Hd A W.
  destruct (test_settings_ok v fresh k transform untransform decode pixel Hk Hd l data (fun s H => ex_intro _ (y s) (W s H))) as (r & E & R).
  exists r. split; [exact E|]. rewrite R. split.
  - intros [->|[_ H]] s Hs; [destruct Hs|]. exact (H s (y s) Hs (W s Hs)).
  - intros H. right. split; [exact A|]. intros s y1 Hs (m & m2 & E1 & E2 & E3 & _). destruct (W s Hs) as (n & n2 & G1 & G2 & G3 & _).
    rewrite G1 in E1. injection E1 as <-. rewrite G2 in E2. injection E2 as <-. rewrite <- E3, G3. exact (H s Hs).
Qed.
Theorem all_settings_in : forall s, In s all_settings.
Proof. intros [[| | |] [|]]; unfold all_settings, all_variants; cbn; tauto. Qed.
Theorem all_settings3_in : forall s, In s all_settings3.
Proof. intros [[| | |] [|] [|]]; unfold all_settings3, all_variants; cbn; tauto. Qed.
Theorem all_settings_once : NoDup all_settings /\ NoDup all_settings3.
Proof.
  split; unfold all_settings, all_settings3, all_variants; cbn;
    repeat (apply NoDup_cons; [cbn; intros H; repeat (destruct H as [H|H]; [discriminate H|]); exact H|]); apply NoDup_nil.
Qed.
