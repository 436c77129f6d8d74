(** The command line tool with the handlers it has on a big-endian machine: what
    Proofs/CliDds.v proves for little-endian ones. *)
From Verif Require Import Base.Bytes Base.Res Model.Color565 Model.Kernel Model.Transform Model.Auto Model.Builders Model.Embed Model.Bundle Model.Dds Model.Handlers Model.Ltu Model.Zstd Model.Cli
  Model.BigEndian Model.BeTransform Model.BeFiles Model.EndianTool.
From Verif Require Import Spec.Layout Spec.Estimator Spec.Ltu Spec.Files Spec.Dds Spec.Handlers Spec.Zstd Spec.Answers Spec.ZstdSizes Spec.Cli Spec.BigEndian Spec.BeFiles.
From Verif Require Import Proofs.BundleFacts Proofs.DdsFacts Proofs.DdsHandler Proofs.DdsMore Proofs.HandlersFacts Proofs.LtuFacts Proofs.ZstdFacts Proofs.ZstdSmallest Proofs.CApiFacts Proofs.CliFacts Proofs.CliRuns Proofs.CliDds
  Proofs.BeBundleFacts Proofs.BeDdsHandler Proofs.BeCApi Proofs.BeEstimators Proofs.BigEndianFacts Proofs.DdsRestore Proofs.BeDdsRestore Proofs.BeFilesFacts.
From Coq Require Import Ascii String.
Open Scope list_scope.
Open Scope Z_scope.

Section DdsFile.
Context {St Er1 : Type}.

Lemma be_dds_undoes : forall (show1 show2 : Er1 -> string) c1 c2 v1 v2 x,
  cpu_ok c1 -> cpu_ok c2 -> 2 ^ 32 - 1 <= usize_max v1 -> zlen x <= usize_max v2 ->
  (c_debug c2 = true -> c_debug c1 = false -> levels_fit x) ->
  undoes (be_dds_handler (St := St) show2 c2 v2) (be_dds_handler show1 c1 v1) x.
Proof.
  intros show1 show2 c1 c2 v1 v2 x K1 K2 U1 U2 D b out w y w1 L E. cbn [h_transform be_dds_handler] in E.
  destruct (be_transform_parses _ _ _ _ _ _ _ _ _ E) as (i & P).
  assert (LY : zlen y = zlen x).
  { destruct (be_transform_success _ _ _ _ _ _ _ _ _ _ K1 P U1 E) as (k & s & _ & _ & Hm & Hl & _ & _ & ->).
    destruct (parse_facts _ _ _ (proj2 (parse_dds_facts _ _ _ P))) as (_ & _ & _ & _ & Hn & Ho & Hx).
    assert (LL : zlen (be_texture_layout k s (slice x (i_data_offset i) (i_data_length i))) = i_data_length i).
    { unfold zlen at 1. rewrite be_layout_len by (rewrite zlen_slice by lia; exact Hm). apply zlen_slice; lia. }
    rewrite !zlen_app, LL, !zlen_slice by lia. change (zlen (u32_bytes (codec_header k s))) with 4.
    rewrite skipn_all2 by (unfold zlen in L; lia). rewrite zlen_nil. lia. }
  split; [exact LY|]. intros out2 w2 L2. exists w2. cbn [h_untransform be_dds_handler].
  pose proof (be_dds_round_trip _ _ show1 c1 c2 v1 v2 b x out out2 w w1 y i K1 K2 P D U1 U2 E ltac:(lia) ltac:(auto)) as RT.
  rewrite firstn_all2 in RT by (unfold zlen in LY; lia). rewrite RT. cbn [bind fst snd].
  rewrite skipn_all2 by (unfold zlen in L2; lia). rewrite app_nil_r. reflexivity.
Qed.

Lemma be_transformed_recognised : forall (show : Er1 -> string) c1 c2 v1 (b : bundle St Er1) x out y st st', cpu_ok c1 -> 2 ^ 32 - 1 <= usize_max v1 ->
  (c_debug c2 = true -> c_debug c1 = false -> levels_fit x) ->
  zlen out = zlen x -> be_dds_transform_bundle show c1 v1 b x out st = Ok (ROk tt, y, st') ->
  forall e, (e = None \/ e = Some "dds"%string) -> dds_can_handle_untransform (c_debug c2) y e = Ok true.
Proof.
  intros show c1 c2 v1 b x out y st st' K1 U1 HF L E e He.
  destruct (be_transform_parses _ _ _ _ _ _ _ _ _ E) as (i & P).
  destruct (be_transform_success _ _ _ _ _ _ _ _ _ _ K1 P U1 E) as (k & s & _ & _ & Hm & Hl & _ & _ & Y).
  destruct (parse_dds_facts _ _ _ P) as (_ & P').
  destruct (parse_facts _ _ _ P') as (_ & _ & HB & _ & Hn & Ho & Hx).
  set (off := i_data_offset i) in *. set (n := i_data_length i) in *.
  set (L1 := be_texture_layout k s (slice x off n)) in *.
  assert (LL : zlen L1 = n).
  { unfold L1. unfold zlen at 1. rewrite be_layout_len by (rewrite zlen_slice by lia; exact Hm). apply zlen_slice; lia. }
  rewrite (skipn_all2 (n := List.length x) out) in Y by (unfold zlen in L; lia). rewrite app_nil_r in Y.
  assert (LY : zlen y = zlen x).
  { rewrite Y, !zlen_app, LL, !zlen_slice by lia. change (zlen (u32_bytes (codec_header k s))) with 4. lia. }
  assert (P2 : parse_dds_ignore_magic (c_debug c2) y = Ok (Some i)).
  { rewrite (parse_cong (c_debug c2) x); [exact (parse_other _ _ _ _ P' HF)|symmetry; exact LY|].
    intros w H1 H2. rewrite Y.
    assert (X : x = slice x 0 4 ++ slice x 4 (off - 4) ++ slice x off n ++ slice x (off + n) (zlen x - (off + n))).
    { rewrite (cut3 x off n) at 1 by lia. assert (Q : slice x 0 off = slice x 0 4 ++ slice x 4 (off - 4)).
      { replace off with (4 + (off - 4)) at 1 by lia. rewrite slice_app_split by lia. reflexivity. }
      rewrite Q, <- app_assoc. reflexivity. }
    transitivity (word (slice x 0 4 ++ slice x 4 (off - 4) ++ slice x off n ++ slice x (off + n) (zlen x - (off + n))) w); [apply word_mid|rewrite <- X; reflexivity].
    - apply zlen_eq. rewrite zlen_slice by lia. reflexivity.
    - change (zlen (u32_bytes (codec_header k s))) with 4. lia.
    - change (zlen (u32_bytes (codec_header k s))) with 4. rewrite zlen_slice by lia. lia. }
  unfold dds_can_handle_untransform. rewrite P2. replace (zlen y <? 4) with false by lia.
  destruct He as [->| ->]; reflexivity.
Qed.
End DdsFile.

Section Dds.
Context {St Er : Type}.
Variable utf8 : string -> bool.
Variable show : Er -> string.
Variables (c : cfg) (v : env).
Notation hs := (be_all_handlers (St := St) show c v).

Lemma be_only_handler (cmd : command (bundle St Er)) x p h : first_accepting utf8 cmd hs x p h -> h = be_dds_handler show c v.
Proof.
  intros (e & l & E & _). unfold be_all_handlers in E. destruct e as [|a e]; cbn [app] in E; [injection E as <- _; reflexivity|].
  injection E as _ E. destruct e; discriminate E.
Qed.

Lemma be_dds_no_ub (cmd : command (bundle St Er)) h x p w why : cpu_ok c -> 2 ^ 32 - 1 <= usize_max v -> In h hs ->
  accepts utf8 cmd h x p w <> Ub why /\ forall d, zlen d = zlen x -> work cmd h x d w <> Ub why.
Proof.
  intros K U [<-|[]]. split.
  - unfold accepts. destruct cmd; cbn [h_can_handle h_can_handle_untransform be_dds_handler].
    + pose proof (can_handle_spec (c_debug c) x (extension_of utf8 p)) as S. destruct (dds_can_handle _ _ _); cbn [bind]; [discriminate|discriminate|contradiction].
    + pose proof (can_handle_untransform_spec (c_debug c) x (extension_of utf8 p)) as S. destruct (dds_can_handle_untransform _ _ _); cbn [bind]; [discriminate|discriminate|contradiction].
  - intros d L. unfold work. destruct cmd.
    + rewrite slice_transform_id by exact L. cbn [h_transform be_dds_handler]. apply be_transform_safe; [exact K|exact U].
    + rewrite slice_untransform_id by exact L. cbn [h_untransform be_dds_handler].
      pose proof (be_untransform_safe c v x d K U) as S. destruct (be_dds_untransform c v x d); cbn [bind]; [discriminate|discriminate|]. exfalso. exact (S _ eq_refl).
Qed.
Lemma be_dds_no_panic (cmd : command (bundle St Er)) h x p w why : cpu_ok c -> 2 ^ 32 + 147 <= usize_max v -> (c_debug c = true -> levels_fit x) -> In h hs ->
  accepts utf8 cmd h x p w <> Panic why /\ forall d, zlen d = zlen x -> work cmd h x d w <> Panic why.
Proof.
  intros K U F [<-|[]]. split.
  - unfold accepts. destruct cmd; cbn [h_can_handle h_can_handle_untransform be_dds_handler].
    + pose proof (can_handle_spec (c_debug c) x (extension_of utf8 p)) as S. destruct (dds_can_handle _ _ _); cbn [bind]; [discriminate| |discriminate].
      destruct S as (S1 & S2 & _). exfalso. exact (S2 (F S1)).
    + pose proof (can_handle_untransform_spec (c_debug c) x (extension_of utf8 p)) as S. destruct (dds_can_handle_untransform _ _ _); cbn [bind]; [discriminate| |discriminate].
      destruct S as (S1 & S2 & _). exfalso. exact (S2 (F S1)).
  - intros d L. unfold work. destruct cmd.
    + rewrite slice_transform_id by exact L. cbn [h_transform be_dds_handler].
      destruct (be_transform_total _ _ show c v b x d w K U) as (r & y & st' & -> & _); [exact F|lia|auto|discriminate].
    + rewrite slice_untransform_id by exact L. cbn [h_untransform be_dds_handler].
      destruct (be_untransform_total c v x d K U) as (r & o & -> & _); [exact F|intros; lia|discriminate].
Qed.

Lemma be_never_undefined (cmd : command (bundle St Er)) I O entries before s : cpu_ok c -> 2 ^ 32 - 1 <= usize_max v ->
  apart I O -> Forall file_name O -> files_below I entries -> reachable utf8 cmd hs I O entries before s ->
  forall p, ~ In (p, Undefined) (s_tasks s).
Proof.
  intros K U A N Bl R p Hin. destruct (explained _ _ _ _ _ _ _ _ A N Bl R) as (_ & _ & Es & Sy & _).
  assert (Hp : In p entries) by (rewrite <- Es; apply (in_map fst) in Hin; exact Hin).
  pose proof (proj2 Bl) as F. rewrite Forall_forall in F. destruct (F p Hp) as (r & -> & _).
  specialize (Sy r _ Hin). cbn [story] in Sy. destruct Sy as (x & Bx & h & w & why & Hh & Q).
  destruct (be_dds_no_ub cmd h x (I ++ r) w why K U Hh) as (Q1 & Q2). destruct Q as [Q|(d & Ld & Q)]; [exact (Q1 Q)|exact (Q2 d Ld Q)].
Qed.
Lemma be_never_panics (cmd : command (bundle St Er)) I O entries before s : cpu_ok c -> 2 ^ 32 + 147 <= usize_max v ->
  (forall p x, In p entries -> before (render p) = Some x -> c_debug c = true -> levels_fit x) ->
  apart I O -> Forall file_name O -> files_below I entries -> reachable utf8 cmd hs I O entries before s ->
  forall p, ~ In (p, Panicked) (s_tasks s).
Proof.
  intros K U D A N Bl R p Hin. destruct (explained _ _ _ _ _ _ _ _ A N Bl R) as (_ & _ & Es & Sy & _).
  assert (Hp : In p entries) by (rewrite <- Es; apply (in_map fst) in Hin; exact Hin).
  pose proof (proj2 Bl) as F. rewrite Forall_forall in F. destruct (F p Hp) as (r & -> & _).
  specialize (Sy r _ Hin). cbn [story] in Sy. destruct Sy as (x & Bx & h & w & why & Hh & Q).
  destruct (be_dds_no_panic cmd h x (I ++ r) w why K U (D _ _ Hp Bx) Hh) as (Q1 & Q2). destruct Q as [Q|(d & Ld & Q)]; [exact (Q1 Q)|exact (Q2 d Ld Q)].
Qed.
End Dds.

(** ** There and back *)
Section Round.
Context {St1 Er1 St2 Er2 : Type}.

Lemma be_directory_round_trip (utf8 : string -> bool) (show1 : Er1 -> string) (show2 : Er2 -> string) c1 c2 v1 v2 (b : bundle St1 Er1) I O R
    entries1 entries2 (fs1 fs2 : files) (s1 : state (B := bundle St1 Er1) (W := St1)) (s2 : state (B := bundle St2 Er2) (W := St2)) r x ph1 ph2 :
  cpu_ok c1 -> cpu_ok c2 -> 2 ^ 32 - 1 <= usize_max v1 -> zlen x <= usize_max v2 ->
  (c_debug c2 = true -> c_debug c1 = false -> levels_fit x) ->
  apart I O -> apart O R -> Forall file_name O -> Forall file_name R -> files_below I entries1 -> files_below O entries2 ->
  reachable utf8 (TransformDir b) (be_all_handlers show1 c1 v1) I O entries1 fs1 s1 ->
  fs1 (render (I ++ r)) = Some x -> In (I ++ r, ph1) (s_tasks s1) -> succeeded ph1 ->
  fs2 (render (O ++ r)) = s_files s1 (render (O ++ r)) ->
  reachable utf8 UntransformDir (be_all_handlers show2 c2 v2) O R entries2 fs2 s2 ->
  In (O ++ r, ph2) (s_tasks s2) ->
  (succeeded ph2 -> s_files s2 (render (R ++ r)) = Some x) /\
  (finished ph2 -> (exists n, ph2 = Counted n) \/ ph2 = Returned (RErr CIo) \/ ph2 = Returned (RErr (CFile FIo))).
Proof.
  intros K1 K2 U1 U2 D A1 A2 N1 N2 B1 B2 R1 F1 T1 S1 F2 R2 T2.
  destruct (explained _ _ _ _ _ _ _ _ A1 N1 B1 R1) as (_ & _ & Es1 & Sy1 & _). specialize (Sy1 _ _ T1).
  destruct (explained _ _ _ _ _ _ _ _ A2 N2 B2 R2) as (_ & _ & Es2 & Sy2 & _). specialize (Sy2 _ _ T2).
  assert (Rn : r <> []).
  { assert (Hp : In (I ++ r) entries1) by (rewrite <- Es1; apply (in_map fst) in T1; exact T1).
    pose proof (proj2 B1) as F. rewrite Forall_forall in F. destruct (F _ Hp) as (r1 & E & Nr & _). apply app_inv_head in E. subst r1. exact Nr. }
  assert (G : exists d w y w1, zlen d = zlen x /\ dds_named (extension_of utf8 (I ++ r)) = true /\
    be_dds_transform_bundle show1 c1 v1 b x d w = Ok (ROk tt, y, w1) /\ fs2 (render (O ++ r)) = Some y).
  { assert (G0 : exists x0 h d w y w1, fs1 (render (I ++ r)) = Some x0 /\ first_accepting utf8 (TransformDir b) (be_all_handlers show1 c1 v1) x0 (I ++ r) h /\ zlen d = zlen x0 /\
      work (TransformDir b) h x0 d w = Ok (ROk tt, y, w1) /\ s_files s1 (render (O ++ r)) = Some y).
    { destruct ph1 as [| |n|n z rest|n z h|n z h|n z h d0 now|[n|e]|n| |]; try contradiction; exact (proj2 Sy1). }
    destruct G0 as (x0 & h & d & w & y & w1 & F0 & Fa & Ld & Wk & Fy). assert (x0 = x) by congruence. subst x0.
    pose proof (be_only_handler _ _ _ _ _ _ _ _ Fa) as ->. exists d, w, y, w1. split; [exact Ld|]. split; [|split; [|congruence]].
    - destruct Fa as (_ & _ & _ & _ & w2 & w3 & Ac). cbn [accepts h_can_handle be_dds_handler] in Ac.
      pose proof (can_handle_spec (c_debug c1) x (extension_of utf8 (I ++ r))) as S. destruct (dds_can_handle _ _ _) as [a| |]; cbn [bind] in Ac; try discriminate Ac.
      injection Ac as -> _. destruct (dds_named (extension_of utf8 (I ++ r))); [reflexivity|discriminate S].
    - cbn [work] in Wk. rewrite slice_transform_id in Wk by exact Ld. exact Wk. }
  destruct G as (d & w & y & w1 & Ld & Nm & Tr & Fy).
  rewrite (same_extension utf8 I O r Rn) in Nm.
  assert (Ex : extension_of utf8 (O ++ r) = None \/ extension_of utf8 (O ++ r) = Some "dds"%string).
  { unfold dds_named in Nm. destruct (extension_of utf8 (O ++ r)) as [e|]; [|left; reflexivity]. right. apply String.eqb_eq in Nm. rewrite Nm. reflexivity. }
  assert (Ac : dds_can_handle_untransform (c_debug c2) y (extension_of utf8 (O ++ r)) = Ok true).
  { apply (be_transformed_recognised show1 c1 c2 v1 b x d y w w1 K1 U1); [exact D|exact Ld|exact Tr|exact Ex]. }
  destruct (be_dds_undoes show1 show1 c1 c2 v1 v2 x K1 K2 U1 U2 D b d w y w1 Ld Tr) as (Ly & Un).
  assert (Back : forall d2, zlen d2 = zlen y -> be_dds_untransform c2 v2 y d2 = Ok (ROk tt, x)).
  { intros d2 L2. destruct (Un d2 w ltac:(congruence)) as (w3 & E). cbn [h_untransform be_dds_handler] in E.
    destruct (be_dds_untransform c2 v2 y d2) as [[ro o]| |]; cbn [bind fst snd] in E; try discriminate E. injection E as -> -> _. reflexivity. }
  assert (Acc : forall h w2, In h (be_all_handlers show2 c2 v2) -> accepts utf8 (UntransformDir (B := bundle St2 Er2)) h y (O ++ r) w2 = Ok (true, w2)).
  { intros h w2 [<-|[]]. cbn [accepts h_can_handle_untransform be_dds_handler]. rewrite Ac. reflexivity. }
  assert (Wrk : forall h d2 w2, In h (be_all_handlers show2 c2 v2) -> zlen d2 = zlen y -> work (UntransformDir (B := bundle St2 Er2)) h y d2 w2 = Ok (ROk tt, x, w2)).
  { intros h d2 w2 [<-|[]] L2. cbn [work]. rewrite slice_untransform_id by exact L2. cbn [h_untransform be_dds_handler]. rewrite (Back d2 L2). reflexivity. }
  assert (InF : forall h, first_accepting utf8 (UntransformDir (B := bundle St2 Er2)) (be_all_handlers show2 c2 v2) y (O ++ r) h -> In h (be_all_handlers show2 c2 v2)).
  { intros h (e1 & l1 & E & _). rewrite E. apply in_or_app. right. left. reflexivity. }
  assert (Good : forall n0, (n0 = 0 \/ (exists x1, fs2 (render (O ++ r)) = Some x1 /\ n0 = zlen x1)) /\ (exists x1 h d2 w2 y2 w3, fs2 (render (O ++ r)) = Some x1 /\
      first_accepting utf8 (UntransformDir (B := bundle St2 Er2)) (be_all_handlers show2 c2 v2) x1 (O ++ r) h /\ zlen d2 = zlen x1 /\
      work (UntransformDir (B := bundle St2 Er2)) h x1 d2 w2 = Ok (ROk tt, y2, w3) /\ s_files s2 (render (R ++ r)) = Some y2) -> s_files s2 (render (R ++ r)) = Some x).
  { intros n0 (_ & x1 & h & d2 & w2 & y2 & w3 & F3 & Fa & L2 & Wk & Out). assert (x1 = y) by congruence. subst x1.
    rewrite (Wrk h d2 w2 (InF h Fa) L2) in Wk. injection Wk as <- <-. exact Out. }
  destruct ph2 as [| |n|n z rest|n z h|n z h|n z h d0 now|[n|e]|n| |]; cbn [succeeded finished]; (split; [intros []; fail|intros []; fail]) || idtac.
  - split; [intros _|intros []]. exact (Good n Sy2).
  - split; [intros []|intros _]. destruct e as [|[|e]]; [right; left; reflexivity|right; right; reflexivity|]. exfalso.
    cbn [story] in Sy2. destruct Sy2 as (x1 & F3 & Q). assert (x1 = y) by congruence. subst x1. destruct Q as [(_ & Dc & _)|(h & d2 & w2 & y2 & w3 & Fa & L2 & Wk & _)].
    + unfold be_all_handlers in Dc. inversion Dc as [|? ? (w2 & w3 & Q) _]; subst. rewrite Acc in Q by (left; reflexivity). discriminate Q.
    + rewrite (Wrk h d2 w2 (InF h Fa) L2) in Wk. discriminate Wk.
  - split; [intros _; exact (Good n Sy2)|intros _]. left. exists n. reflexivity.
  - split; [intros []|intros _]. exfalso. cbn [story] in Sy2. destruct Sy2 as (x1 & F3 & h & w2 & why & Hh & Q). assert (x1 = y) by congruence. subst x1.
    destruct Q as [Q|(d2 & L2 & Q)]; [rewrite (Acc h w2 Hh) in Q; discriminate Q|rewrite (Wrk h d2 w2 Hh L2) in Q; discriminate Q].
  - split; [intros []|intros _]. exfalso. cbn [story] in Sy2. destruct Sy2 as (x1 & F3 & h & w2 & why & Hh & Q). assert (x1 = y) by congruence. subst x1.
    destruct Q as [Q|(d2 & L2 & Q)]; [rewrite (Acc h w2 Hh) in Q; discriminate Q|rewrite (Wrk h d2 w2 Hh L2) in Q; discriminate Q].
Qed.
End Round.

(** ** Presets *)
Lemma be_transform_when : forall (St Er : Type) (show : Er -> string) (c : cfg) (v : env) (t : bundle St Er) (x out : list byte) (st : St) i f,
  2 ^ 32 + 147 <= usize_max v -> parse_dds (c_debug c) x = Ok (Some i) -> dds_format_to_transform_format (i_format i) false = ROk f ->
  i_data_offset i + i_data_length i <= zlen x -> zlen out = zlen x ->
  let T := slice x (i_data_offset i) (i_data_length i) in
  let oT := slice out (i_data_offset i) (i_data_length i) in
  match be_dispatch_transform show c v t f T oT st with
  | Ok (ROk h, tg, st') => zlen tg = zlen T -> be_dds_transform_bundle show c v t x out st = Ok (ROk tt, packed_file h x (i_data_offset i) (i_data_length i) tg, st')
  | Ok (RErr e, tg, st') => zlen tg = zlen T ->
      be_dds_transform_bundle show c v t x out st = Ok (RErr e, slice x 0 (i_data_offset i) ++ tg ++ skipn (Z.to_nat (i_data_offset i + i_data_length i)) out, st')
  | _ => True
  end.
Proof.
  intros St Er show c v t x out st i f HU P F Le LO T oT.
  destruct (parse_facts _ _ _ (proj2 (parse_dds_facts _ _ _ P))) as (_ & _ & _ & _ & Hn & Ho & Hx).
  subst T oT. set (off := i_data_offset i) in *. set (n := i_data_length i) in *.
  set (H := slice x 0 off). set (T := slice x off n). set (R := slice x (off + n) (zlen x - (off + n))).
  set (oH := slice out 0 off). set (oT := slice out off n). set (oR := slice out (off + n) (zlen out - (off + n))).
  assert (X : x = H ++ T ++ R) by (apply cut3; lia). assert (Xo : out = oH ++ oT ++ oR) by (apply cut3; lia).
  assert (LH : zlen H = off) by (apply zlen_slice; lia). assert (LT : zlen T = n) by (apply zlen_slice; lia).
  assert (LR : zlen R = zlen x - (off + n)) by (apply zlen_slice; lia).
  assert (LoH : zlen oH = off) by (apply zlen_slice; lia). assert (LoT : zlen oT = n) by (apply zlen_slice; lia).
  assert (LoR : zlen oR = zlen x - (off + n)) by (unfold oR; rewrite zlen_slice; lia).
  assert (SK : skipn (Z.to_nat (off + n)) out = oR).
  { rewrite Xo, app_assoc. rewrite skipn_app. assert (LL : List.length (oH ++ oT) = Z.to_nat (off + n)) by (rewrite app_length; unfold zlen in LoH, LoT; lia).
    rewrite skipn_all2 by lia. rewrite <- LL, Nat.sub_diag. reflexivity. }
  rewrite SK. clear SK. rewrite X in P. rewrite X, Xo. rewrite (be_transform_pieces show c v t H T R oH oT oR st i P) by (fold off n; lia).
  rewrite F. destruct (be_dispatch_transform show c v t f T oT st) as [[[[h|e] tg] st']| |]; cbn [bind]; try exact Logic.I; intros Lt.
  - rewrite splice_mid by (try apply zlen_eq; rewrite ?zlen_app; lia).
    assert (SH : H = slice x 0 4 ++ slice x 4 (off - 4)).
    { unfold H. replace off with (4 + (off - 4)) at 1 by lia. rewrite slice_app_split by lia. reflexivity. }
    assert (WR : forall tl, write_to_ptr h (H ++ tl) 0 = u32_bytes h ++ slice x 4 (off - 4) ++ tl).
    { intros tl. rewrite SH, <- app_assoc. unfold write_to_ptr. apply (splice_mid [] (slice x 0 4)); [reflexivity|].
      apply zlen_eq. rewrite zlen_slice by lia. reflexivity. }
    assert (PK : packed_file h (H ++ T ++ R) off n tg = u32_bytes h ++ slice x 4 (off - 4) ++ tg ++ R) by (rewrite <- X; reflexivity).
    rewrite PK. destruct (0 <? zlen R) eqn:ZR.
    + rewrite (app_assoc H tg), copy_tail by (rewrite ?zlen_app; lia). cbn [bind]. rewrite <- ?(app_assoc H), WR. reflexivity.
    + cbn [bind]. rewrite WR. assert (R = []) as -> by (apply length_zero_iff_nil; unfold zlen in *; lia).
      assert (oR = []) as -> by (apply length_zero_iff_nil; unfold zlen in *; lia). reflexivity.
  - rewrite splice_mid by (try apply zlen_eq; rewrite ?zlen_app; lia). reflexivity.
Qed.

Section Presets.
Variables (c : cfg) (v : env) (x out : list byte) (i : dds_info).
Hypothesis K : cpu_ok c.
Hypothesis HU : 2 ^ 32 + 147 <= usize_max v.
Hypothesis HF : whole_bc1_file (c_debug c) x i.
Hypothesis LO : zlen out = zlen x.
Let off := i_data_offset i.
Let n := i_data_length i.
Let T := slice x off n.
Let oT := slice out off n.

Lemma be_pieces_facts : zlen T = n /\ zlen oT = n /\ zlen T mod 8 = 0 /\ zlen T <= zlen oT /\ zlen T <= usize_max v /\
  forall y : list byte, y ++ skipn (List.length T) oT = y.
Proof.
  destruct HF as (P & F & Le & Hm & HD). destruct (parse_facts _ _ _ (proj2 (parse_dds_facts _ _ _ P))) as (_ & _ & _ & _ & Hn & Ho & Hx). fold off n in Le, Hm, HD, Hn, Ho.
  assert (LT : zlen T = n) by (apply zlen_slice; lia). assert (LoT : zlen oT = n) by (apply zlen_slice; lia).
  split; [exact LT|]. split; [exact LoT|]. split; [rewrite LT; exact Hm|]. split; [lia|]. split; [lia|].
  intros y. rewrite skipn_all2 by (apply Nat.eq_le_incl, zlen_eq; lia). apply app_nil_r.
Qed.

Lemma be_low_works : forall (show : Empty_set -> string),
  be_dds_transform_bundle show c v low_preset_bundle x out tt = Ok (ROk tt, packed_file (codec_header CBc1 (Settings V1 true)) x off n (be_texture_layout CBc1 (Settings V1 true) T), tt).
Proof.
  intros show. destruct be_pieces_facts as (LT & LoT & Hm & Hl & _ & SK). pose proof HF as (P & F & Le & _).
  pose proof (be_transform_when unit Empty_set show c v low_preset_bundle x out tt i FBc1 HU P ltac:(rewrite F; reflexivity) Le LO) as W. cbv zeta in W. fold off n in W. fold T oT in W.
  change low_preset_bundle with (installed [WithManual (St := unit) (Er := Empty_set) CBc1 manual_new]) in W at 1. change FBc1 with (codec_format CBc1) in W.
  rewrite be_dispatch_manual in W by exact Hl. rewrite be_core_transform_ok in W by assumption. cbn [bind fst snd] in W. rewrite SK in W.
  apply W. apply (f_equal Z.of_nat). apply be_layout_len. exact Hm.
Qed.

Lemma be_medium_works : forall (matches : list byte -> Z) (show : ltu_error -> string), (forall d, 0 <= matches d) ->
  exists s, candidate false (decorrelation_mode s) /\
    be_dds_transform_bundle show c v (medium_preset_bundle matches) x out tt = Ok (ROk tt, packed_file (codec_header CBc1 s) x off n (be_texture_layout CBc1 s T), tt) /\
    forall s', candidate false (decorrelation_mode s') -> ltu_total matches (be_bc1_shown T s) <= ltu_total matches (be_bc1_shown T s').
Proof.
  intros matches show M. destruct be_pieces_facts as (LT & LoT & Hm & Hl & Hu & SK). pose proof HF as (P & F & Le & _).
  destruct (be_lC45_bc1_auto matches c v false T oT M K Hm Hl Hu) as (s & y & E & E1 & C & Opt).
  pose proof (be_core_transform_ok CBc1 c s T oT K Hm Hl) as E2. cbn [be_core_transform] in E2. rewrite E1, SK in E2. assert (Y : y = be_texture_layout CBc1 s T) by congruence. clear E2. subst y.
  exists s. split; [exact C|]. split; [|exact Opt].
  pose proof (be_transform_when unit ltu_error show c v (medium_preset_bundle matches) x out tt i FBc1 HU P ltac:(rewrite F; reflexivity) Le LO) as W. cbv zeta in W. fold off n in W. fold T oT in W.
  change (medium_preset_bundle matches) with (installed [WithAuto CBc1 (auto_new (ltu matches))]) in W at 1. change FBc1 with (codec_format CBc1) in W.
  rewrite be_dispatch_auto in W by exact Hl. cbn [be_core_auto ab_estimator ab_use_all auto_new] in W. rewrite E in W. cbn [bind] in W.
  apply W. apply (f_equal Z.of_nat). apply be_layout_len. exact Hm.
Qed.

Lemma be_zstd_works : forall (L : Type) (lib : zstd_lib L) (lv : Z) (all : bool) (show : zstd_error -> string) (st : L), keeps_promise lib -> can_allocate lib v (n / 2) ->
  exists s st', candidate all (decorrelation_mode s) /\
    be_dds_transform_bundle show c v (with_bc1_auto bundle_new (AutoBuilder (zstd lib lv) all)) x out st =
      Ok (ROk tt, packed_file (codec_header CBc1 s) x off n (be_texture_layout CBc1 s T), st') /\
    forall size, compresses_to lib v size -> forall s', candidate all (decorrelation_mode s') ->
      compressed_sum (size lv) (be_bc1_shown T s) <= compressed_sum (size lv) (be_bc1_shown T s').
Proof.
  intros L lib lv all show st KP CA. destruct be_pieces_facts as (LT & LoT & Hm & Hl & Hu & SK). pose proof HF as (P & F & Le & _).
  destruct (be_zstd_bc1_auto L lib lv c v all T oT st KP K Hm Hl ltac:(rewrite LT; exact CA)) as (s & y & st' & E).
  destruct (be_core_auto_total CBc1 c v (zstd lib lv) all T oT st K Hm Hl) as (r & y1 & st1 & E1 & Q). cbn [be_core_auto] in E1. rewrite E in E1. injection E1 as <- <- <-.
  destruct Q as (C & Y). rewrite SK in Y. subst y. exists s, st'. split; [exact C|]. split; [|intros size CT; exact (be_bc1_smallest lib v size lv KP CT c all T oT st s _ st' K E)].
  set (t := with_bc1_auto bundle_new (AutoBuilder (zstd lib lv) all)).
  pose proof (be_transform_when L zstd_error show c v t x out st i FBc1 HU P ltac:(rewrite F; reflexivity) Le LO) as W. cbv zeta in W. fold off n in W. fold T oT in W.
  change t with (installed [WithAuto CBc1 (AutoBuilder (zstd lib lv) all)]) in W at 1. change FBc1 with (codec_format CBc1) in W.
  rewrite be_dispatch_auto in W by exact Hl. cbn [be_core_auto ab_estimator ab_use_all] in W. rewrite E in W. cbn [bind] in W.
  apply W. apply (f_equal Z.of_nat). apply be_layout_len. exact Hm.
Qed.
End Presets.

(** Only BC1 is configured. *)
Lemma be_bc2_declined : forall (St Er : Type) (show : Er -> string) (c : cfg) (v : env) (t : bundle St Er) (x out : list byte) (st : St) i,
  b_bc2 t = None -> 2 ^ 32 + 147 <= usize_max v -> parse_dds (c_debug c) x = Ok (Some i) -> i_format i = DBC2 ->
  i_data_offset i + i_data_length i <= zlen x -> zlen out = zlen x ->
  be_dds_transform_bundle show c v t x out st =
    Ok (RErr (EFormatHandler (NoBuilderForFormat FBc2)), slice x 0 (i_data_offset i) ++ skipn (Z.to_nat (i_data_offset i)) out, st).
Proof.
  intros St Er show c v t x out st i B HU P F Le LO.
  destruct (parse_facts _ _ _ (proj2 (parse_dds_facts _ _ _ P))) as (_ & _ & _ & _ & Hn & Ho & Hx).
  pose proof (be_transform_when St Er show c v t x out st i FBc2 HU P ltac:(rewrite F; reflexivity) Le LO) as W. cbv zeta in W.
  assert (LT : zlen (slice x (i_data_offset i) (i_data_length i)) = i_data_length i) by (apply zlen_slice; lia).
  assert (LoT : zlen (slice out (i_data_offset i) (i_data_length i)) = i_data_length i) by (apply zlen_slice; lia).
  unfold be_dispatch_transform in W. rewrite LT, LoT, Z.ltb_irrefl, B in W. rewrite W by exact LoT. do 4 f_equal.
  unfold slice. rewrite Z2Nat.inj_add by lia. rewrite Nat.add_comm, <- skipn_skipn'. apply firstn_skipn.
Qed.

Lemma be_optimal_works : forall (c : cfg) (v : env) (x out : list byte) (i : dds_info), cpu_ok c -> 2 ^ 32 + 147 <= usize_max v ->
  whole_bc1_file (c_debug c) x i -> zlen out = zlen x -> forall (L : Type) (lib : zstd_lib L) (show : zstd_error -> string) (st : L),
  keeps_promise lib -> can_allocate lib v (i_data_length i / 2) ->
  exists t s st', optimal_preset_bundle lib = ROk t /\ candidate false (decorrelation_mode s) /\
    be_dds_transform_bundle show c v t x out st =
      Ok (ROk tt, packed_file (codec_header CBc1 s) x (i_data_offset i) (i_data_length i)
                    (be_texture_layout CBc1 s (slice x (i_data_offset i) (i_data_length i))), st') /\
    forall size, compresses_to lib v size -> forall s', candidate false (decorrelation_mode s') ->
      compressed_sum (size 1) (be_bc1_shown (slice x (i_data_offset i) (i_data_length i)) s) <=
      compressed_sum (size 1) (be_bc1_shown (slice x (i_data_offset i) (i_data_length i)) s').
Proof.
  intros c v x out i K HU HF LO L lib show st KP CA. destruct (be_zstd_works c v x out i K HU HF LO L lib 1 false show st KP CA) as (s & st' & C & E & Q).
  exists (with_bc1_auto bundle_new (auto_new (zstd lib 1))), s, st'. split; [reflexivity|]. split; [exact C|]. split; [exact E|exact Q].
Qed.
Lemma be_max_works : forall (c : cfg) (v : env) (x out : list byte) (i : dds_info), cpu_ok c -> 2 ^ 32 + 147 <= usize_max v ->
  whole_bc1_file (c_debug c) x i -> zlen out = zlen x -> forall (L : Type) (lib : zstd_lib L) (show : zstd_error -> string) (st : L),
  keeps_promise lib -> can_allocate lib v (i_data_length i / 2) ->
  exists t s st', max_preset_bundle lib = ROk t /\ candidate true (decorrelation_mode s) /\
    be_dds_transform_bundle show c v t x out st =
      Ok (ROk tt, packed_file (codec_header CBc1 s) x (i_data_offset i) (i_data_length i)
                    (be_texture_layout CBc1 s (slice x (i_data_offset i) (i_data_length i))), st') /\
    forall size, compresses_to lib v size -> forall s', candidate true (decorrelation_mode s') ->
      compressed_sum (size 1) (be_bc1_shown (slice x (i_data_offset i) (i_data_length i)) s) <=
      compressed_sum (size 1) (be_bc1_shown (slice x (i_data_offset i) (i_data_length i)) s').
Proof.
  intros c v x out i K HU HF LO L lib show st KP CA. destruct (be_zstd_works c v x out i K HU HF LO L lib 1 true show st KP CA) as (s & st' & C & E & Q).
  exists (with_bc1_auto bundle_new (auto_new_ultra (zstd lib 1))), s, st'. split; [reflexivity|]. split; [exact C|]. split; [exact E|exact Q].
Qed.

(** ** From one byte order to the other *)
(** What a run with one handler has left behind for a file it is done with. *)
Lemma one_done {B W} utf8 (cmd : command B) (h : handler B W) I O entries before s r x ph :
  apart I O -> Forall file_name O -> files_below I entries -> reachable utf8 cmd [h] I O entries before s ->
  before (render (I ++ r)) = Some x -> In (I ++ r, ph) (s_tasks s) -> succeeded ph ->
  exists d w y w1, zlen d = zlen x /\ work cmd h x d w = Ok (ROk tt, y, w1) /\ s_files s (render (O ++ r)) = Some y.
Proof.
  intros A N Bl R Bx T S. destruct (explained _ _ _ _ _ _ _ _ A N Bl R) as (_ & _ & _ & Sy & _). specialize (Sy _ _ T).
  assert (G0 : exists x0 h0 d w y w1, before (render (I ++ r)) = Some x0 /\ first_accepting utf8 cmd [h] x0 (I ++ r) h0 /\ zlen d = zlen x0 /\
    work cmd h0 x0 d w = Ok (ROk tt, y, w1) /\ s_files s (render (O ++ r)) = Some y).
  { destruct ph as [| |n|n z rest|n z h0|n z h0|n z h0 d0 now|[n|e]|n| |]; try contradiction; exact (proj2 Sy). }
  destruct G0 as (x0 & h0 & d & w & y & w1 & F0 & (e & l & E & _) & Ld & Wk & Fy). assert (x0 = x) by congruence. subst x0.
  assert (h0 = h) as -> by (destruct e as [|a e]; cbn [app] in E; [injection E as -> _; reflexivity|injection E as _ E; destruct e; discriminate E]).
  exists d, w, y, w1. auto.
Qed.

Lemma directory_to_be {St1 Er1 St2 Er2 : Type} (utf8 : string -> bool) (show1 : Er1 -> string) (show2 : Er2 -> string) c d j v1 v2 (b : bundle St1 Er1) I O R
    entries1 entries2 (fs1 fs2 : files) (s1 : state (B := bundle St1 Er1) (W := St1)) (s2 : state (B := bundle St2 Er2) (W := St2)) r x ph1 ph2 i :
  supported c -> 2 ^ 32 - 1 <= usize_max v1 -> zlen x <= usize_max v2 ->
  parse_dds (c_debug c) x = Ok (Some i) -> (c_debug c = true -> 0 < i_data_length i) -> (d = true -> c_debug c = false -> levels_fit x) ->
  apart I O -> apart O R -> Forall file_name O -> Forall file_name R -> files_below I entries1 -> files_below O entries2 ->
  reachable utf8 (TransformDir b) (all_handlers show1 c v1) I O entries1 fs1 s1 ->
  fs1 (render (I ++ r)) = Some x -> In (I ++ r, ph1) (s_tasks s1) -> succeeded ph1 ->
  fs2 (render (O ++ r)) = s_files s1 (render (O ++ r)) ->
  reachable utf8 UntransformDir (be_all_handlers show2 (big_endian_cpu d j) v2) O R entries2 fs2 s2 ->
  In (O ++ r, ph2) (s_tasks s2) -> succeeded ph2 ->
  let T := slice x (i_data_offset i) (i_data_length i) in
  exists k s y, s_files s1 (render (O ++ r)) = Some y /\ word y 0 = codec_header k s /\
    (s_files s2 (render (R ++ r)) = Some x <-> be_texture_layout k s T = texture_layout k s T).
Proof.
  intros K U1 U2 P D F A1 A2 N1 N2 B1 B2 R1 F1 T1 S1 F2 R2 T2 S2 T.
  destruct (one_done _ _ _ _ _ _ _ _ _ _ _ A1 N1 B1 R1 F1 T1 S1) as (o & w & y & w1 & Lo & Wk & Fy).
  cbn [work] in Wk. rewrite slice_transform_id in Wk by exact Lo. cbn [h_transform dds_handler] in Wk.
  destruct (one_done _ _ _ _ _ _ _ _ _ _ _ A2 N2 B2 R2 ltac:(rewrite F2; exact Fy) T2 S2) as (o2 & w2 & z & w3 & Lo2 & Wk2 & Fz).
  cbn [work] in Wk2. rewrite slice_untransform_id in Wk2 by exact Lo2. cbn [h_untransform be_dds_handler] in Wk2.
  destruct (transform_success show1 c v1 b x o w y w1 i K P D U1 Wk) as (k & s & _ & _ & Hm & Hl & _ & _ & Y).
  destruct (parse_facts _ _ _ (proj2 (parse_dds_facts _ _ _ P))) as (_ & _ & _ & _ & Hn & Ho & Hx). fold T in Y.
  assert (LT : zlen T = i_data_length i) by (apply zlen_slice; lia).
  assert (LL : zlen (texture_layout k s T) = i_data_length i) by (unfold zlen; rewrite layout_len by (rewrite LT; exact Hm); exact LT).
  rewrite (skipn_all2 (n := List.length x) o) in Y by (unfold zlen in Lo; lia). rewrite app_nil_r in Y.
  assert (Ly : zlen y = zlen x).
  { rewrite Y, !zlen_app, LL, !zlen_slice by lia. change (zlen (u32_bytes (codec_header k s))) with 4. lia. }
  destruct (be_restore (big_endian_cpu d j) (c_debug c) v2 x o2 (texture_layout k s T) i k s (big_endian_ok d j) P F Hl Hm LL U2 ltac:(lia) ltac:(lia)) as (T' & LT' & ET' & E').
  rewrite Y, E' in Wk2. cbn [bind fst snd] in Wk2. injection Wk2 as <- _.
  rewrite skipn_all2 in Fz by (unfold zlen in Lo2, Ly; lia). rewrite app_nil_r in Fz.
  destruct (put_back x T' (i_data_offset i) (i_data_length i) ltac:(lia) ltac:(lia) Hl LT') as (PL & PE).
  exists k, s, y. split; [exact Fy|]. split; [rewrite Y; apply word_head, codec_header_bound|]. rewrite Fz. transitivity (T' = T); [|split].
  - unfold T. split; [intros Q; apply PE; injection Q as Q; exact Q|intros Q; apply PE in Q; rewrite Q; reflexivity].
  - intros <-. exact ET'.
  - intros Q. apply (be_layout_inj k s); [rewrite LT'; exact Hm|apply zlen_eq; lia|]. rewrite ET'. symmetry. exact Q.
Qed.
Lemma directory_to_le {St1 Er1 St2 Er2 : Type} (utf8 : string -> bool) (show1 : Er1 -> string) (show2 : Er2 -> string) c d j v1 v2 (b : bundle St1 Er1) I O R
    entries1 entries2 (fs1 fs2 : files) (s1 : state (B := bundle St1 Er1) (W := St1)) (s2 : state (B := bundle St2 Er2) (W := St2)) r x ph1 ph2 i :
  supported c -> 2 ^ 32 - 1 <= usize_max v1 -> zlen x <= usize_max v2 ->
  parse_dds d x = Ok (Some i) -> (c_debug c = true -> 0 < i_data_length i) -> (c_debug c = true -> d = false -> levels_fit x) ->
  apart I O -> apart O R -> Forall file_name O -> Forall file_name R -> files_below I entries1 -> files_below O entries2 ->
  reachable utf8 (TransformDir b) (be_all_handlers show1 (big_endian_cpu d j) v1) I O entries1 fs1 s1 ->
  fs1 (render (I ++ r)) = Some x -> In (I ++ r, ph1) (s_tasks s1) -> succeeded ph1 ->
  fs2 (render (O ++ r)) = s_files s1 (render (O ++ r)) ->
  reachable utf8 UntransformDir (all_handlers show2 c v2) O R entries2 fs2 s2 ->
  In (O ++ r, ph2) (s_tasks s2) -> succeeded ph2 ->
  let T := slice x (i_data_offset i) (i_data_length i) in
  exists k s y, s_files s1 (render (O ++ r)) = Some y /\ word y 0 = codec_header k s /\
    (s_files s2 (render (R ++ r)) = Some x <-> be_texture_layout k s T = texture_layout k s T).
Proof.
  intros K U1 U2 P D F A1 A2 N1 N2 B1 B2 R1 F1 T1 S1 F2 R2 T2 S2 T.
  destruct (one_done _ _ _ _ _ _ _ _ _ _ _ A1 N1 B1 R1 F1 T1 S1) as (o & w & y & w1 & Lo & Wk & Fy).
  cbn [work] in Wk. rewrite slice_transform_id in Wk by exact Lo. cbn [h_transform be_dds_handler] in Wk.
  destruct (one_done _ _ _ _ _ _ _ _ _ _ _ A2 N2 B2 R2 ltac:(rewrite F2; exact Fy) T2 S2) as (o2 & w2 & z & w3 & Lo2 & Wk2 & Fz).
  cbn [work] in Wk2. rewrite slice_untransform_id in Wk2 by exact Lo2. cbn [h_untransform dds_handler] in Wk2.
  destruct (be_transform_success show1 (big_endian_cpu d j) v1 b x o w y w1 i (big_endian_ok d j) P U1 Wk) as (k & s & _ & _ & Hm & Hl & _ & _ & Y).
  destruct (parse_facts _ _ _ (proj2 (parse_dds_facts _ _ _ P))) as (_ & _ & _ & _ & Hn & Ho & Hx). fold T in Y.
  assert (LT : zlen T = i_data_length i) by (apply zlen_slice; lia).
  assert (LL : zlen (be_texture_layout k s T) = i_data_length i) by (unfold zlen; rewrite be_layout_len by (rewrite LT; exact Hm); exact LT).
  rewrite (skipn_all2 (n := List.length x) o) in Y by (unfold zlen in Lo; lia). rewrite app_nil_r in Y.
  assert (Ly : zlen y = zlen x).
  { rewrite Y, !zlen_app, LL, !zlen_slice by lia. change (zlen (u32_bytes (codec_header k s))) with 4. lia. }
  destruct (restore c d v2 x o2 (be_texture_layout k s T) i k s K P D F Hl Hm LL U2 ltac:(lia) ltac:(lia)) as (T' & LT' & ET' & E').
  rewrite Y, E' in Wk2. cbn [bind fst snd] in Wk2. injection Wk2 as <- _.
  rewrite skipn_all2 in Fz by (unfold zlen in Lo2, Ly; lia). rewrite app_nil_r in Fz.
  destruct (put_back x T' (i_data_offset i) (i_data_length i) ltac:(lia) ltac:(lia) Hl LT') as (PL & PE).
  exists k, s, y. split; [exact Fy|]. split; [rewrite Y; apply word_head, codec_header_bound|]. rewrite Fz. transitivity (T' = T); [|split].
  - unfold T. split; [intros Q; apply PE; injection Q as Q; exact Q|intros Q; apply PE in Q; rewrite Q; reflexivity].
  - intros <-. symmetry. exact ET'.
  - intros Q. apply (layout_inj k s); [rewrite LT'; exact Hm|apply zlen_eq; lia|]. rewrite ET'. exact Q.
Qed.
