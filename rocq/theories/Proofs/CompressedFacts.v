(** The compressed data cache. *)
From Verif Require Import Base.Bytes Base.Res Model.Transform Model.Handlers Model.Inspect Model.Zstd Model.Caches Spec.Compressed Proofs.CachesFacts.
From Coq Require Import Ascii String ZifyBool ZifyNat.
From Coq Require DecimalString HexadecimalString DecimalZ HexadecimalZ DecimalFacts HexadecimalFacts.
Open Scope string_scope.
Open Scope list_scope.
Open Scope Z_scope.

(** ** Names of cache files *)

Fixpoint has (c : ascii) (s : string) : bool := match s with EmptyString => false | String a s => Ascii.eqb a c || has c s end.
Lemma cut_at : forall c s1 s2 r1 r2, has c s1 = false -> has c s2 = false -> (s1 ++ String c r1 = s2 ++ String c r2)%string -> s1 = s2 /\ r1 = r2.
Proof.
  intros c. induction s1 as [|a s1 IH]; intros [|b s2] r1 r2 H1 H2 E; cbn in *.
  - injection E as E. auto.
  - injection E as Ea E. subst b. rewrite Ascii.eqb_refl in H2. discriminate.
  - injection E as Ea E. subst a. rewrite Ascii.eqb_refl in H1. discriminate.
  - apply orb_false_iff in H1, H2. injection E as -> E. destruct (IH s2 r1 r2 (proj2 H1) (proj2 H2) E) as [-> ->]. auto.
Qed.
Lemma has_app : forall c s t, has c (s ++ t) = has c s || has c t.
Proof. intros c s t. induction s as [|a s IH]; [reflexivity|]. cbn. rewrite IH, orb_assoc. reflexivity. Qed.
Lemma hex_digits : forall c u, existsb (Ascii.eqb c) ["0"; "1"; "2"; "3"; "4"; "5"; "6"; "7"; "8"; "9"; "a"; "b"; "c"; "d"; "e"; "f"]%char = false ->
  has c (HexadecimalString.NilEmpty.string_of_uint u) = false.
Proof.
  intros c u H. cbn [existsb] in H. repeat (apply orb_false_iff in H; destruct H as [? H]).
  induction u; cbn [HexadecimalString.NilEmpty.string_of_uint has]; [reflexivity|..]; rewrite IHu, orb_false_r, Ascii.eqb_sym; assumption.
Qed.
Lemma dec_digits : forall c u, existsb (Ascii.eqb c) ["0"; "1"; "2"; "3"; "4"; "5"; "6"; "7"; "8"; "9"]%char = false ->
  has c (DecimalString.NilEmpty.string_of_uint u) = false.
Proof.
  intros c u H. cbn [existsb] in H. repeat (apply orb_false_iff in H; destruct H as [? H]).
  induction u; cbn [DecimalString.NilEmpty.string_of_uint has]; [reflexivity|..]; rewrite IHu, orb_false_r, Ascii.eqb_sym; assumption.
Qed.
Lemma hex_has : forall c n, existsb (Ascii.eqb c) ["0"; "1"; "2"; "3"; "4"; "5"; "6"; "7"; "8"; "9"; "a"; "b"; "c"; "d"; "e"; "f"; "-"]%char = false -> has c (hex n) = false.
Proof.
  intros c n H. rewrite (existsb_app _ ["0"; "1"; "2"; "3"; "4"; "5"; "6"; "7"; "8"; "9"; "a"; "b"; "c"; "d"; "e"; "f"]%char ["-"]%char) in H.
  apply orb_false_iff in H. destruct H as [H H2]. unfold hex, HexadecimalString.NilZero.string_of_int.
  assert (Z0 : has c "0" = false).
  { cbn [has]. rewrite orb_false_r, Ascii.eqb_sym. cbn [existsb] in H. apply orb_false_iff in H. exact (proj1 H). }
  assert (U : forall u, has c (HexadecimalString.NilZero.string_of_uint u) = false).
  { intros u. unfold HexadecimalString.NilZero.string_of_uint. destruct u; try exact Z0; apply hex_digits; exact H. }
  destruct (Z.to_hex_int n) as [u|u]; [apply U|]. cbn [has]. rewrite U, orb_false_r, Ascii.eqb_sym. cbn in H2. rewrite orb_false_r in H2. exact H2.
Qed.
Lemma dec_has : forall c n, existsb (Ascii.eqb c) ["0"; "1"; "2"; "3"; "4"; "5"; "6"; "7"; "8"; "9"; "-"]%char = false -> has c (decimal n) = false.
Proof.
  intros c n H. rewrite (existsb_app _ ["0"; "1"; "2"; "3"; "4"; "5"; "6"; "7"; "8"; "9"]%char ["-"]%char) in H.
  apply orb_false_iff in H. destruct H as [H H2]. unfold decimal, DecimalString.NilZero.string_of_int.
  assert (Z0 : has c "0" = false).
  { cbn [has]. rewrite orb_false_r, Ascii.eqb_sym. cbn [existsb] in H. apply orb_false_iff in H. exact (proj1 H). }
  assert (U : forall u, has c (DecimalString.NilZero.string_of_uint u) = false).
  { intros u. unfold DecimalString.NilZero.string_of_uint. destruct u; try exact Z0; apply dec_digits; exact H. }
  destruct (Z.to_int n) as [u|u]; [apply U|]. cbn [has]. rewrite U, orb_false_r, Ascii.eqb_sym. cbn in H2. rewrite orb_false_r in H2. exact H2.
Qed.

Lemma hex_inj : forall n m, hex n = hex m -> n = m.
Proof.
  intros n m E. unfold hex in E.
  assert (T : forall n, Z.to_hex_int n <> Hexadecimal.Pos Hexadecimal.Nil /\ Z.to_hex_int n <> Hexadecimal.Neg Hexadecimal.Nil).
  { intros k. destruct k as [|p|p]; cbn; split; try discriminate; intros H; injection H as H;
    pose proof (HexadecimalPos.Unsigned.to_uint_nonnil p); congruence. }
  pose proof (HexadecimalString.NilZero.isi _ (proj1 (T n)) (proj2 (T n))) as A.
  pose proof (HexadecimalString.NilZero.isi _ (proj1 (T m)) (proj2 (T m))) as B.
  rewrite E in A. rewrite A in B. injection B as B. rewrite <- (HexadecimalZ.of_to n), B. apply HexadecimalZ.of_to.
Qed.
Lemma decimal_inj : forall n m, decimal n = decimal m -> n = m.
Proof.
  intros n m E. unfold decimal in E.
  assert (T : forall n, Z.to_int n <> Decimal.Pos Decimal.Nil /\ Z.to_int n <> Decimal.Neg Decimal.Nil).
  { intros k. destruct k as [|p|p]; cbn; split; try discriminate; intros H; injection H as H;
    pose proof (DecimalPos.Unsigned.to_uint_nonnil p); congruence. }
  pose proof (DecimalString.NilZero.isi _ (proj1 (T n)) (proj2 (T n))) as A.
  pose proof (DecimalString.NilZero.isi _ (proj1 (T m)) (proj2 (T m))) as B.
  rewrite E in A. rewrite A in B. injection B as B. rewrite <- (DecimalZ.of_to n), B. apply DecimalZ.of_to.
Qed.

Fixpoint strip (s : string) : string := match s with String " " t => strip t | _ => s end.
Lemma strip_spaces : forall n s, has " " s = false -> strip (spaces n ++ s) = s.
Proof.
  induction n as [|n IH]; intros s H; cbn; [|apply IH; exact H].
  destruct s as [|a s]; [reflexivity|]. cbn in H. apply orb_false_iff in H. destruct H as [H _].
  destruct a as [[] [] [] [] [] [] [] []]; try reflexivity; discriminate.
Qed.
Lemma spaces_has : forall c n, Ascii.eqb " " c = false -> has c (spaces n) = false.
Proof. intros c n H. induction n as [|n IH]; [reflexivity|]. cbn [spaces has]. rewrite H. exact IH. Qed.

Theorem cache_key_inj : forall h l a h' l' a', cache_key h l a = cache_key h' l' a' -> h = h' /\ l = l' /\ a = a'.
Proof.
  intros h l a h' l' a' E. unfold cache_key in E.
  change (pad32 (hex h) ++ String "_" (decimal l ++ String "." (file_extension a)) = pad32 (hex h') ++ String "_" (decimal l' ++ String "." (file_extension a')))%string in E.
  assert (P : forall n, has "_" (pad32 (hex n)) = false).
  { intros n. unfold pad32. rewrite has_app, spaces_has by reflexivity. apply hex_has. reflexivity. }
  apply cut_at in E; [|apply P|apply P]. destruct E as [E1 E2].
  apply cut_at in E2; [|apply dec_has; reflexivity|apply dec_has; reflexivity]. destruct E2 as [E2 E3].
  split; [|split].
  - apply hex_inj. unfold pad32 in E1.
    rewrite <- (strip_spaces (32 - String.length (hex h)) (hex h)) by (apply hex_has; reflexivity).
    rewrite E1. apply strip_spaces. apply hex_has. reflexivity.
  - apply decimal_inj. exact E2.
  - destruct a, a'; try reflexivity; discriminate.
Qed.

(** ** Compressing, and decompressing what was compressed *)
Section Codec.
Context {L : Type}.
Variables (y : zstd_codec L) (frame : parameters -> list byte -> list byte).
Hypothesis B : behaves y frame.

Lemma raw_compress_frame : forall level d n st r st', raw_compress y level d n st = (ROk r, st') ->
  exists ps, ps ZFormat = 1 /\ r = (zlen (frame ps d), frame ps d).
Proof.
  intros level d n st r st' H. destruct B as (cc & dd & first & B1 & B2 & B3 & _). unfold raw_compress in H.
  destruct (y_create_cctx y st) as [[c|] st1] eqn:E; [|discriminate]. pose proof (B1 _ _ _ E) as C.
  unfold raw_set_compress_params in H. unfold ZSTD_f_zstd1_magicless in H.
  pose proof (B2 _ _ ZCompressionLevel level _ C) as C1. pose proof (B2 _ _ ZFormat 1 _ C1) as C2. pose proof (B2 _ _ ZContentSizeFlag 0 _ C2) as C3.
  pose proof (B2 _ _ ZChecksumFlag 0 _ C3) as C4. pose proof (B2 _ _ ZDictIDFlag 0 _ C4) as C5. cbv zeta in H.
  pose proof (B3 _ _ _ n d C5) as D. destruct (y_compress2 _ _ _ _ _) as [[z bytes] st2]. cbn [fst] in *.
  destruct (y_is_error y z) eqn:Z; cbn [negb] in H; [discriminate|]. destruct D as [D|D]; [congruence|].
  injection H as H _. rewrite <- H, D. eexists. split; [|reflexivity]. reflexivity.
Qed.
Lemma raw_decompress_frame : forall ps d n st, ps ZFormat = 1 -> zlen d <= n ->
  exists st', raw_decompress y (frame ps d) n st = (ROk (zlen d, d), st').
Proof.
  intros ps d n st F H. destruct B as (cc & dd & first & _ & _ & _ & B4 & B5 & B6 & B7). unfold raw_decompress.
  destruct (B4 st) as (c & st1 & -> & D). unfold raw_set_decompress_params, ZSTD_f_zstd1_magicless.
  pose proof (B5 _ _ 1 _ D) as D1. rewrite <- F in D1 at 2. pose proof (B6 _ _ _ n d D1 H) as E.
  destruct (y_decompress _ _ _ _ _) as [r st2]. cbn [fst] in E. subst r. cbn [fst]. rewrite B7. eauto.
Qed.

Variable hash : list byte -> Z.

Local Notation genuine := (genuine frame hash).

Lemma save_genuine : forall ds fate c d level ps, genuine ds c -> In d ds -> ps ZFormat = 1 -> (forall n, fate <> StopsAfter n) ->
  genuine ds (snd (save_compressed_data fate c (hash d) level ZStandard (frame ps d))).
Proof.
  intros ds fate c d level ps G I F NC. unfold save_compressed_data. destruct fate as [| |n|]; cbn [snd]; try exact G; [destruct (NC n eq_refl)|].
  intros name bytes H. unfold set_file in H. destruct (String.eqb _ _) eqn:E; [|exact (G _ _ H)].
  apply String.eqb_eq in E. injection H as <-. exists d, level, ps. auto.
Qed.

Lemma one_use_genuine : forall ds u sizes c r sizes' c' st', genuine ds c -> In (u_data u) ds -> not_cut u -> no_collision hash ds ->
  one_use y hash u sizes c = Ok (r, (sizes', c', st')) ->
  genuine ds c' /\ forall buf n, r = ROk (buf, n) -> exists ps, ps ZFormat = 1 /\ firstn (Z.to_nat n) buf = frame ps (u_data u) /\ n = zlen (frame ps (u_data u)).
Proof.
  intros ds u sizes c r sizes' c' st' G I NC COL H. unfold one_use, compress_data_cached, load_compressed_data in H.
  destruct (c (cache_key (hash (u_data u)) (u_level u) (u_algorithm u))) as [bytes|] eqn:F.
  - destruct (u_reads u); injection H as <- <- <- <-; (split; [exact G|]); intros buf n E; [|discriminate]. injection E as <- <-.
    destruct (G _ _ F) as (d & level & ps & Id & K & Fm & ->). apply cache_key_inj in K. destruct K as (K & _ & _).
    rewrite (COL _ _ I Id K). exists ps. split; [exact Fm|]. split; [|reflexivity]. unfold zlen. rewrite Nat2Z.id. apply firstn_all.
  - unfold compress_with_algorithm in H. destruct (u_algorithm u); [|discriminate].
    destruct (raw_compress y (u_level u) (u_data u) _ (u_lib u)) as [[[z bytes]|[]] st1] eqn:E; cbn [bind] in H.
    + destruct (raw_compress_frame _ _ _ _ _ _ E) as (ps & Fm & R). injection R as -> ->.
      assert (FN : firstn (Z.to_nat (zlen (frame ps (u_data u)))) (frame ps (u_data u)) = frame ps (u_data u)) by (unfold zlen; rewrite Nat2Z.id; apply firstn_all).
      rewrite FN in H. pose proof (save_genuine ds (u_fate u) c (u_data u) (u_level u) ps G I Fm NC) as S.
      destruct (save_compressed_data _ _ _ _ _ _) as [sr c1]. cbn [snd] in S. injection H as <- <- <- <-. split; [exact S|].
      intros buf n Eq. injection Eq as <- <-. exists ps. auto.
    + injection H as <- <- <- <-. split; [exact G|]. intros buf n Eq. discriminate.
Qed.
Lemma uses_genuine : forall ds us sizes c, genuine ds c -> (forall u, In u us -> In (u_data u) ds /\ not_cut u) -> no_collision hash ds ->
  genuine ds (snd (uses y hash us sizes c)).
Proof.
  intros ds us. induction us as [|u us IH]; intros sizes c G A COL; [exact G|]. cbn [uses].
  assert (A' : forall u, In u us -> In (u_data u) ds /\ not_cut u) by (intros u' H'; apply A; right; exact H').
  destruct (A u (or_introl eq_refl)) as (I & NC).
  destruct (one_use y hash u sizes c) as [[r [[s1 c1] st1]]|w|w] eqn:E; [|apply IH; assumption|apply IH; assumption].
  apply IH; [|exact A'|exact COL]. exact (proj1 (one_use_genuine _ _ _ _ _ _ _ _ G I NC COL E)).
Qed.

Theorem cached_round_trip : forall us u sizes c buf n sizes' c' st' out st2,
  (forall u, In u us -> not_cut u) -> not_cut u -> no_collision hash (map u_data (us ++ [u])) ->
  uses y hash us [] no_files = (sizes, c) -> one_use y hash u sizes c = Ok (ROk (buf, n), (sizes', c', st')) -> zlen (u_data u) <= zlen out ->
  exists st3, decompress_with_algorithm y (firstn (Z.to_nat n) buf) out (u_algorithm u) st2 =
    Ok (ROk (zlen (u_data u)), u_data u ++ skipn (List.length (u_data u)) out, st3).
Proof.
  intros us u sizes c buf n sizes' c' st' out st2 A NC COL U H LEN.
  assert (IN : forall u', In u' (us ++ [u]) -> In (u_data u') (map u_data (us ++ [u]))) by (intros u' H'; apply in_map; exact H').
  assert (G0 : genuine (map u_data (us ++ [u])) no_files) by (intros name bytes E; discriminate).
  pose proof (uses_genuine (map u_data (us ++ [u])) us [] no_files G0
    (fun u' H' => conj (IN u' (in_or_app _ _ _ (or_introl H'))) (A u' H')) COL) as G. rewrite U in G. cbn [snd] in G.
  assert (Iu : In u (us ++ [u])) by (apply in_or_app; right; left; reflexivity).
  destruct (one_use_genuine _ _ _ _ _ _ _ _ G (IN u Iu) NC COL H) as (_ & R).
  destruct (R _ _ eq_refl) as (ps & Fm & -> & ->).
  assert (AL : u_algorithm u = ZStandard).
  { destruct (u_algorithm u) eqn:E; [reflexivity|]. exfalso. unfold one_use, compress_data_cached, load_compressed_data in H. rewrite E in H.
    destruct (c (cache_key (hash (u_data u)) (u_level u) LosslessTransformUtils)) as [bytes|] eqn:F; [|discriminate].
    destruct (G _ _ F) as (d & level & ps' & _ & K & _). apply cache_key_inj in K. destruct K as (_ & _ & K). discriminate. }
  rewrite AL. cbn [decompress_with_algorithm]. destruct (raw_decompress_frame ps (u_data u) (zlen out) st2 Fm LEN) as (st3 & ->). eauto.
Qed.
End Codec.

Lemma firstn_zlen : forall (l : list byte), firstn (Z.to_nat (zlen l)) l = l.
Proof. intros l. unfold zlen. rewrite Nat2Z.id. apply firstn_all. Qed.
(** A file that was written is used from then on, whatever the library does. *)
Theorem saved_is_used : forall {L} (y : zstd_codec L) hash u sizes c buf n sizes' c' st',
  one_use y hash u sizes c = Ok (ROk (buf, n), (sizes', c', st')) -> u_fate u = Completes -> (0 <= n <= zlen buf) ->
  forall v sizes2, u_data v = u_data u -> u_level v = u_level u -> u_algorithm v = u_algorithm u -> u_reads v = true ->
  one_use y hash v sizes2 c' = Ok (ROk (firstn (Z.to_nat n) buf, n), (sizes2, c', u_lib v)).
Proof.
  intros L y hash u sizes c buf n sizes' c' st' H F LEN v sizes2 E1 E2 E3 R. unfold one_use, compress_data_cached, load_compressed_data in *.
  rewrite E1, E2, E3, R. destruct (c (cache_key (hash (u_data u)) (u_level u) (u_algorithm u))) as [bytes|] eqn:G.
  - destruct (u_reads u); [|discriminate]. injection H as <- <- <- <- <-. rewrite G, firstn_zlen. reflexivity.
  - destruct (compress_with_algorithm _ _ _ _ _) as [[[[b z]|er] st1]|w|w]; cbn [bind] in H; try discriminate.
    rewrite F in H. cbn [save_compressed_data] in H. injection H as <- <- <- <- <-.
    unfold set_file. rewrite String.eqb_refl.
    replace (zlen (firstn (Z.to_nat z) b)) with z; [reflexivity|]. unfold zlen in *. rewrite firstn_length_le by lia. lia.
Qed.

(** Each call makes one context, sets it up, uses it once and frees it. *)
Theorem codec_life : forall {L} (y : zstd_codec L) (st : L),
  (forall level d n, exists c r st', raw_compress (watched_codec y) level d n (st, []) = (r, (st', life_c level c)) /\ raw_compress y level d n st = (r, st')) /\
  (forall d n, exists c r st', raw_decompress (watched_codec y) d n (st, []) = (r, (st', life_d c)) /\ raw_decompress y d n st = (r, st')).
Proof.
  intros L y st. split.
  - intros level d n. unfold raw_compress. cbn [watched_codec y_create_cctx fst snd]. destruct (y_create_cctx y st) as [[c|] st1].
    + unfold raw_set_compress_params. cbn [watched_codec y_set_parameter y_compress2 y_free_cctx y_is_error fst snd].
      destruct (y_compress2 y c n d _) as [r st2]. cbn [fst snd app]. exists (Some c).
      destruct (negb (y_is_error y (fst r))); do 2 eexists; (split; [reflexivity|reflexivity]).
    + exists None. do 2 eexists. split; reflexivity.
  - intros d n. unfold raw_decompress. cbn [watched_codec y_create_dctx fst snd]. destruct (y_create_dctx y st) as [[c|] st1].
    + unfold raw_set_decompress_params. cbn [watched_codec y_set_d_parameter y_decompress y_free_dctx y_is_error fst snd].
      destruct (y_decompress y c n d _) as [r st2]. cbn [fst snd app]. exists (Some c).
      destruct (y_is_error y (fst r)); do 2 eexists; (split; [reflexivity|reflexivity]).
    + exists None. do 2 eexists. split; reflexivity.
Qed.
