(** The automatic searches of the three formats. *)
From Verif Require Import Base.Bytes Base.Res Model.Color565 Model.Ycc Model.Kernel Model.Transform Model.Auto
  Spec.YCoCg Spec.Layout Spec.Estimator Proofs.LayoutFacts Proofs.Families Proofs.TransformFacts Proofs.SliceFacts Proofs.AutoFacts.
From Coq Require Import ZifyBool ZifyNat.

(** ** What a run of a checked search amounts to *)
Definition AUTO {St Er S} {out : list byte} (v : env) (e : estimator St Er) (shown : S -> list (list byte)) (L : S -> list byte)
  (order : list S) (dflt : S) (k : Z) (run : St -> res (result S (auto_error Er) * list byte * St)) : Prop :=
  forall st, exists y,
  match max_compressed_size e st k with
  | (RErr e1, st1) => run st = Ok (RErr (DetermineBestTransform (SizeEstimationError e1)), y, st1) /\ y = out
  | (ROk n, st1) =>
      if negb (n =? 0) && negb (alloc_ok v n)
      then run st = Ok (RErr (DetermineBestTransform AllocateError), y, st1) /\ y = out
      else match srch e shown n order dflt (usize_max v) st1 with
           | (ROk s, st2) => run st = Ok (ROk s, y, st2) /\ y = L s
           | (RErr e1, st2) => run st = Ok (RErr (DetermineBestTransform (SizeEstimationError e1)), y, st2) /\ exists s, y = L s
           end
  end.

Lemma auto_run : forall {St Er S} v (e : estimator St Er) (shown : S -> list (list byte)) (L : S -> list byte) blk k x out
  (transform : S -> mem -> res mem) estimate same order dflt,
  (forall s o, zlen o = zlen out -> transform s (Mem x [] o) = Ok (Mem x [] (splice o 0 (L s)))) ->
  (forall s, zlen (L s) = zlen x) -> zlen x mod blk = 0 -> zlen x <= zlen out ->
  (forall n s st, estimate n (Mem x [] (splice out 0 (L s))) st = Ok (est_all e (shown s) n 0 st)) ->
  (forall a c, same a c = true <-> a = c) -> order <> [] ->
  AUTO (out := out) v e shown (fun s => L s ++ skipn (List.length x) out) order dflt k
    (auto_checked blk (fun _ _ _ => search v e k transform estimate same dflt order) x out).
Proof.
  intros St Er S v e shown L blk k x out transform estimate same order dflt HT HL Hm Ho HE Hs Hne st.
  unfold auto_checked. replace (zlen x mod blk =? 0) with true by lia. cbn [negb].
  replace (zlen out <? zlen x) with false by lia.
  destruct (search_srch v e shown x [] out 0 (zlen x) L transform estimate same order dflt HT HL ltac:(lia) ltac:(lia)
    (fun n s st _ => HE n s st) Hs Hne k st) as (o' & A).
  exists o'. destruct (max_compressed_size e st k) as [[n|e1] st1]; [|destruct A as (A & O); rewrite A; split; [reflexivity|exact O]].
  destruct (negb (n =? 0) && negb (alloc_ok v n)); [destruct A as (A & O); rewrite A; split; [reflexivity|exact O]|].
  assert (TL : forall s, splice out 0 (L s) = L s ++ skipn (List.length x) out).
  { intros s. rewrite splice_at_0. do 2 f_equal. pose proof (HL s). unfold zlen in *. lia. }
  destruct (srch e shown n order dflt (usize_max v) st1) as [[s|e1] st2]; [|destruct A as (A & s & O); rewrite A; split; [reflexivity|exists s; rewrite O; apply TL]].
  destruct A as (A & E). rewrite A. cbn [bind m_out]. split; [reflexivity|]. rewrite E. apply TL.
Qed.

Lemma AUTO_ok : forall {St Er S} {out} v (e : estimator St Er) (shown : S -> list (list byte)) L order dflt k run st s y st',
  AUTO (out := out) v e shown L order dflt k run -> In dflt order -> run st = Ok (ROk s, y, st') -> In s order /\ y = L s.
Proof.
  intros St Er S out v e shown L order dflt k run st s y st' A Hd H. destruct (A st) as (y' & B).
  destruct (max_compressed_size e st k) as [[n|e1] st1]; [|destruct B as (B & _); rewrite B in H; discriminate].
  destruct (negb (n =? 0) && negb (alloc_ok v n)); [destruct B as (B & _); rewrite B in H; discriminate|].
  destruct (srch e shown n order dflt (usize_max v) st1) as [[s'|e1] st2] eqn:E; [|destruct B as (B & _); rewrite B in H; discriminate].
  destruct B as (B & ->). rewrite B in H. injection H as <- <- <-. split; [|reflexivity].
  apply srch_in in E. destruct E as [->|E]; assumption.
Qed.

Lemma AUTO_pure : forall {Er S} {out} v (mx : Z -> result Z Er) size (shown : S -> list (list byte)) L order dflt k run s y st',
  AUTO (out := out) v (pure mx size) shown L order dflt k run -> In dflt order ->
  (forall n s z, total_size (fun d => size d n) (shown s) = ROk z -> z <= usize_max v) ->
  run tt = Ok (ROk s, y, st') ->
  exists n z, mx k = ROk n /\ total_size (fun d => size d n) (shown s) = ROk z /\
    (forall s', In s' order -> exists z', total_size (fun d => size d n) (shown s') = ROk z' /\ z <= z') /\
    (z < usize_max v -> exists pre post, order = pre ++ s :: post /\
       forall s', In s' pre -> exists z', total_size (fun d => size d n) (shown s') = ROk z' /\ z < z').
Proof.
  intros Er S out v mx size shown L order dflt k run s y st' A Hd Hu H. destruct (A tt) as (y' & B).
  cbn [pure max_compressed_size] in B. destruct (mx k) as [n|e1]; [|destruct B as (B & _); rewrite B in H; discriminate].
  destruct (negb (n =? 0) && negb (alloc_ok v n)); [destruct B as (B & _); rewrite B in H; discriminate|].
  destruct (srch (pure mx size) shown n order dflt (usize_max v) tt) as [[s'|e1] st2] eqn:E; [|destruct B as (B & _); rewrite B in H; discriminate].
  destruct B as (B & ->). rewrite B in H. injection H as <- <- <-.
  destruct (srch_best mx size shown n order dflt (usize_max v) s' st2 Hd (fun s' z _ => Hu n s' z) E) as (z & Z1 & Z2 & Z3).
  exists n, z. auto.
Qed.

(** what a failing search leaves in the output *)
Lemma AUTO_fail : forall {St Er S} {out} v (e : estimator St Er) (shown : S -> list (list byte)) L order dflt k run st r y st',
  AUTO (out := out) v e shown L order dflt k run -> run st = Ok (RErr r, y, st') -> y = out \/ exists s, y = L s.
Proof.
  intros St Er S out v e shown L order dflt k run st r y st' A H. destruct (A st) as (y' & B).
  destruct (max_compressed_size e st k) as [[n|e1] st1]; [|destruct B as (B & O); rewrite B in H; injection H as _ <- _; auto].
  destruct (negb (n =? 0) && negb (alloc_ok v n)); [destruct B as (B & O); rewrite B in H; injection H as _ <- _; auto|].
  destruct (srch e shown n order dflt (usize_max v) st1) as [[s'|e1] st2] eqn:E; destruct B as (B & O); rewrite B in H; [discriminate|]. injection H as _ <- _. auto.
Qed.

(** no failing answer in the log *)
Definition answered {Er} (k : call Er) : Prop := exists z, answer k = ROk z.

Lemma AUTO_log : forall {St Er S} {out} v (e : estimator St Er) (shown : S -> list (list byte)) L order dflt k run st,
  AUTO (out := out) v (logging e) shown L order dflt k run ->
  exists r y st' log, run (st, []) = Ok (r, y, (st', log)) /\
    match r with
    | ROk _ => Forall answered log
    | RErr (DetermineBestTransform (SizeEstimationError e1)) => exists l q, log = l ++ [q] /\ answer q = RErr e1 /\ Forall answered l
    | RErr (DetermineBestTransform AllocateError) => exists n, log = [AskedMax k (ROk n)] /\ alloc_ok v n = false
    | RErr _ => False
    end /\
    exists a rest, log = AskedMax k a :: rest /\
    match a with
    | RErr _ => rest = []
    | ROk n => exists seen, Forall2 (fun d q => exists ans, q = AskedSize d n ans) seen rest /\
        (exists unseen, flat_map shown order = seen ++ unseen /\ ((exists s, r = ROk s) -> unseen = []))
    end.
Proof.
  intros St Er S out v e shown L order dflt k run st A. destruct (A (st, [])) as (y & B).
  cbn [logging max_compressed_size fst snd] in B. destruct (max_compressed_size e st k) as [[n|e1] st1].
  2:{ destruct B as (B & _). rewrite B. do 4 eexists. split; [reflexivity|]. split.
      - exists [], (AskedMax k (RErr e1)). repeat split. constructor.
      - exists (RErr e1), []. split; reflexivity. }
  cbn [app] in B. destruct (negb (n =? 0) && negb (alloc_ok v n)) eqn:Ea.
  { destruct B as (B & _). rewrite B. do 4 eexists. split; [reflexivity|]. split.
    - exists n. split; [reflexivity|]. destruct (alloc_ok v n); [cbn in Ea; rewrite andb_false_r in Ea; discriminate|reflexivity].
    - exists (ROk n), []. split; [reflexivity|]. exists []. split; [constructor|]. exists (flat_map shown order).
      split; [reflexivity|]. intros [s Hs]. discriminate. }
  destruct (srch (logging e) shown n order dflt (usize_max v) (st1, [AskedMax k (ROk n)])) as [r [st2 lg]] eqn:E.
  apply srch_log in E. destruct E as (calls & -> & (q & an & Ec & Hl & Q)).
  assert (F2 : Forall2 (fun d c => exists ans, c = AskedSize d n ans) (firstn q (flat_map shown order)) calls).
  { rewrite Ec. clear -Hl. revert an Hl. generalize (firstn q (flat_map shown order)). intros l.
    induction l as [|d l IH]; intros [|a an] Hl; try discriminate; constructor; [eexists; reflexivity|]. apply IH. injection Hl. auto. }
  assert (AN : map answer calls = an).
  { rewrite Ec. clear -Hl. revert an Hl. generalize (firstn q (flat_map shown order)). intros l.
    induction l as [|d l IH]; intros [|a an] Hl; try discriminate; [reflexivity|]. cbn. f_equal. apply IH. injection Hl. auto. }
  destruct r as [s|e1].
  - destruct B as (B & ->). rewrite B. do 4 eexists. split; [reflexivity|]. destruct Q as (Q1 & Q2). split.
    + apply Forall_app. split; [repeat constructor; exists n; reflexivity|]. rewrite <- AN in Q2. rewrite Forall_map in Q2. exact Q2.
    + exists (ROk n), calls. split; [reflexivity|]. exists (firstn q (flat_map shown order)). split; [exact F2|].
      exists []. rewrite app_nil_r. split; [symmetry; exact Q1|reflexivity].
  - destruct B as (B & _). rewrite B. do 4 eexists. split; [reflexivity|]. destruct Q as (zs & Q1 & Q2). split.
    + rewrite <- AN in Q1. destruct (map_eq_app answer calls zs [RErr e1] Q1) as (l1 & l2 & -> & M1 & M2).
      destruct l2 as [|c [|c' l2]]; try discriminate. injection M2 as M2. exists (AskedMax k (ROk n) :: l1), c.
      split; [reflexivity|]. split; [exact M2|]. constructor; [exists n; reflexivity|]. rewrite <- M1 in Q2. rewrite Forall_map in Q2. exact Q2.
    + exists (ROk n), calls. split; [reflexivity|]. exists (firstn q (flat_map shown order)). split; [exact F2|].
      exists (skipn q (flat_map shown order)). rewrite firstn_skipn. split; [reflexivity|]. intros [s Hs]. discriminate.
Qed.

(** ** The sections shown *)
Lemma lay_app : forall f g bs, lay (f ++ g) bs = lay f bs ++ lay g bs.
Proof. intros. unfold lay. rewrite map_app, concat_app. reflexivity. Qed.

Lemma lay_slice : forall k fs0 fs1 fs2 ws0 ws1 bs, Forall2 (fwidth k) fs0 ws0 -> Forall2 (fwidth k) fs1 ws1 ->
  (forall b, In b bs -> List.length b = k) ->
  slice (lay (fs0 ++ fs1 ++ fs2) bs) (Z.of_nat (List.length bs * sum ws0)) (Z.of_nat (List.length bs * sum ws1)) = lay fs1 bs.
Proof.
  intros k fs0 fs1 fs2 ws0 ws1 bs H0 H1 Hb. rewrite !lay_app. unfold slice. rewrite !Nat2Z.id.
  rewrite <- (lay_length k fs0 ws0 bs H0 Hb), <- (lay_length k fs1 ws1 bs H1 Hb).
  rewrite skipn_app, skipn_all, Nat.sub_diag. cbn [skipn app].
  rewrite firstn_app, firstn_all, Nat.sub_diag. cbn [firstn]. apply app_nil_r.
Qed.

Lemma fwidth_colours : forall k v sp off, Forall2 (fwidth k) (colour_fields v sp off) (colour_widths sp).
Proof. intros k v [] off; repeat constructor; intros b _; reflexivity. Qed.
Lemma fwidth_raw : forall k off n, (off + n <= k)%nat -> fwidth k (raw off n) n.
Proof. intros k off n H b Hb. unfold raw. rewrite firstn_length, skipn_length. lia. Qed.

Lemma blocks_all : forall k x, (0 < k)%nat -> forall b, In b (blocks k x) -> List.length b = k.
Proof. intros k x Hk b. unfold blocks. apply chunks_in. nia. Qed.
Lemma blocks_count : forall k x, List.length (blocks k x) = (List.length x / k)%nat.
Proof. intros. unfold blocks. apply chunks_length. Qed.

Lemma colour_sum : forall sp, sum (colour_widths sp) = 4%nat.
Proof. intros []; reflexivity. Qed.

Lemma slice_of_splice0 : forall (out d : list byte) off n, 0 <= off -> 0 <= n -> off + n <= zlen d ->
  slice (splice out 0 d) off n = slice d off n.
Proof.
  intros out d off n H0 Hn H. rewrite splice_at_0. unfold slice, zlen in *.
  rewrite skipn_app. replace (Z.to_nat off - List.length d)%nat with O by lia. rewrite firstn_app, skipn_length.
  replace (Z.to_nat n - (List.length d - Z.to_nat off))%nat with O by lia. cbn [firstn]. apply app_nil_r.
Qed.

Lemma estimate_out : forall {St Er} (e : estimator St Er) x out d off n scratch st, 0 <= off -> 0 <= n -> off + n <= zlen d -> zlen d <= zlen out ->
  estimate_at e (Ptr BOut off) n scratch (Mem x [] (splice out 0 d)) st = Ok (estimate_compressed_size e st (slice d off n) scratch).
Proof.
  intros. unfold estimate_at, mload. cbn [p_buf p_off buf_of m_out].
  rewrite zlen_splice by lia. replace ((0 <=? off) && (off + n <=? zlen out)) with true by lia. cbn [bind].
  rewrite slice_of_splice0 by assumption. reflexivity.
Qed.

Lemma settings_eqb_spec : forall a c, settings_eqb a c = true <-> a = c.
Proof. intros [[] []] [[] []]; split; intros H; try reflexivity; discriminate H. Qed.
Lemma settings3_eqb_spec : forall a c, settings3_eqb a c = true <-> a = c.
Proof. intros [[] [] []] [[] [] []]; split; intros H; try reflexivity; discriminate H. Qed.

Lemma one_est : forall {St Er} (e : estimator St Er) d n st, est_all e [d] n 0 st = estimate_compressed_size e st d n.
Proof. intros. cbn [est_all]. destruct (estimate_compressed_size e st d n) as [[z|e1] st1]; [rewrite Z.add_0_l|]; reflexivity. Qed.

(** ** The three formats *)
Definition order1 (all : bool) : list settings := if all then comprehensive_test_order else fast_test_order.
Definition order3 (all : bool) : list settings3 := if all then comprehensive_test_order3 else fast_test_order3.

Lemma order1_in : forall all s, In s (order1 all) <-> candidate all (decorrelation_mode s).
Proof.
  intros all s. unfold candidate. split.
  - destruct all; [auto|]. intros H. right. simpl in H. destruct s as [[] []]; simpl; intuition congruence.
  - destruct all; [intros _|intros [H|[H|H]]]; destruct s as [[] []]; simpl in *; subst; try discriminate; auto 20.
Qed.
Lemma order3_in : forall all s, In s (order3 all) <-> candidate all (decorrelation_mode3 s).
Proof.
  intros all s. unfold candidate. split.
  - destruct all; [auto|]. intros H. right. simpl in H. destruct s as [[] [] []]; simpl; intuition congruence.
  - destruct all; [intros _|intros [H|[H|H]]]; destruct s as [[] [] []]; simpl in *; subst; try discriminate; auto 20.
Qed.

Lemma nonempty_pos : forall x : list byte, x <> [] -> 0 < zlen x.
Proof. intros [|b x] H; [congruence|]. unfold zlen. cbn [List.length]. lia. Qed.

Lemma bc1_AUTO : forall {St Er} c v (e : estimator St Er) all x out, cpu_ok c -> (c_debug c = true -> x <> []) ->
  zlen x mod 8 = 0 -> zlen x <= zlen out ->
  AUTO (out := out) v e (bc1_shown x) (fun s => bc1_layout (decorrelation_mode s) (split_colour_endpoints s) x ++ skipn (List.length x) out)
    (order1 all) default_settings (zlen x / 2) (transform_bc1_auto c v e all x out).
Proof.
  intros St Er c v e all x out K HD Hm Ho. unfold transform_bc1_auto.
  assert (LL : forall s, zlen (bc1_layout (decorrelation_mode s) (split_colour_endpoints s) x) = zlen x).
  { intros s. destruct (bc1_fam (decorrelation_mode s) (split_colour_endpoints s)) as (sht & shu & FM).
    apply (lay_zlen _ _ _ _ _ _ x FM); [lia|exact Hm]. }
  pose proof (zlen_nonneg _ x) as Hx.
  apply (auto_run v e (bc1_shown x) (fun s => bc1_layout (decorrelation_mode s) (split_colour_endpoints s) x) 8 (zlen x / 2) x out);
    [ | exact LL | exact Hm | exact Ho | | apply settings_eqb_spec | destruct all; discriminate].
  - intros s o Hz. rewrite bc1_call; [rewrite slice_all; reflexivity|exact K|intros D _; apply nonempty_pos; auto|exact Hm|lia..].
  - intros n s st. cbn beta. rewrite estimate_out by (rewrite ?LL; lia). unfold bc1_shown. rewrite one_est.
    do 2 f_equal. unfold bc1_layout, bc1_fields.
    rewrite <- (lay_slice 8 [] (colour_fields (decorrelation_mode s) (split_colour_endpoints s) 0) [raw 4 4] [] (colour_widths (split_colour_endpoints s)));
      [|constructor|apply fwidth_colours|apply blocks_all; lia].
    rewrite colour_sum, blocks_count. cbn [app sum fold_right]. f_equal; unfold zlen in *; lia.
Qed.

Lemma bc2_AUTO : forall {St Er} c v (e : estimator St Er) all x out, cpu_ok c -> (c_avx512bw c = true -> c_avx512vl c = true) ->
  zlen x mod 16 = 0 -> zlen x <= zlen out ->
  AUTO (out := out) v e (bc2_shown x) (fun s => bc2_layout (decorrelation_mode s) (split_colour_endpoints s) x ++ skipn (List.length x) out)
    (order1 all) default_settings (zlen x / 4) (transform_bc2_auto c v e all x out).
Proof.
  intros St Er c v e all x out K VL Hm Ho. unfold transform_bc2_auto.
  assert (LL : forall s, zlen (bc2_layout (decorrelation_mode s) (split_colour_endpoints s) x) = zlen x).
  { intros s. destruct (bc2_fam (decorrelation_mode s) (split_colour_endpoints s)) as (sht & shu & FM).
    apply (lay_zlen _ _ _ _ _ _ x FM); [lia|exact Hm]. }
  pose proof (zlen_nonneg _ x) as Hx.
  apply (auto_run v e (bc2_shown x) (fun s => bc2_layout (decorrelation_mode s) (split_colour_endpoints s) x) 16 (zlen x / 4) x out);
    [ | exact LL | exact Hm | exact Ho | | apply settings_eqb_spec | destruct all; discriminate].
  - intros s o Hz. rewrite bc2_call; [rewrite slice_all; reflexivity|exact K|exact VL|exact Hm|lia..].
  - intros n s st. cbn beta. rewrite ptr_add_in by (cbn [p_buf p_off buf_of m_out]; rewrite zlen_splice by (rewrite ?LL; lia); lia).
    cbn [bind]. unfold padd. cbn [p_buf p_off].
    rewrite estimate_out by (rewrite ?LL; lia). unfold bc2_shown. rewrite one_est.
    do 2 f_equal. unfold bc2_layout, bc2_fields.
    rewrite <- (lay_slice 16 [raw 0 8] (colour_fields (decorrelation_mode s) (split_colour_endpoints s) 8) [raw 12 4] [8%nat] (colour_widths (split_colour_endpoints s)));
      [|repeat constructor; apply fwidth_raw; lia|apply fwidth_colours|apply blocks_all; lia].
    rewrite colour_sum, blocks_count. cbn [app sum fold_right]. f_equal; unfold zlen in *; lia.
Qed.

Lemma fwidth_alphas : forall sa : bool, Forall2 (fwidth 16) (if sa then [raw 0 1; raw 1 1] else [raw 0 2]) (if sa then [1; 1]%nat else [2]%nat).
Proof. intros []; repeat constructor; apply fwidth_raw; lia. Qed.

Lemma bc3_AUTO : forall {St Er} c v (e : estimator St Er) all x out, cpu_ok c -> (c_debug c = true -> x <> []) ->
  (forall st d n z st', estimate_compressed_size e st d n = (ROk z, st') -> 2 * z <= usize_max v) ->
  zlen x mod 16 = 0 -> zlen x <= zlen out ->
  AUTO (out := out) v e (bc3_shown x) (fun s => bc3_layout (decorrelation_mode3 s) (split_alpha_endpoints s) (split_colour_endpoints3 s) x ++ skipn (List.length x) out)
    (order3 all) default_settings3 (zlen x / 4) (transform_bc3_auto c v e all x out).
Proof.
  intros St Er c v e all x out K HD HS Hm Ho. unfold transform_bc3_auto.
  assert (LL : forall s, zlen (bc3_layout (decorrelation_mode3 s) (split_alpha_endpoints s) (split_colour_endpoints3 s) x) = zlen x).
  { intros s. destruct (bc3_fam (decorrelation_mode3 s) (split_alpha_endpoints s) (split_colour_endpoints3 s)) as (sht & shu & FM).
    apply (lay_zlen _ _ _ _ _ _ x FM); [lia|exact Hm]. }
  pose proof (zlen_nonneg _ x) as Hx.
  apply (auto_run v e (bc3_shown x) (fun s => bc3_layout (decorrelation_mode3 s) (split_alpha_endpoints s) (split_colour_endpoints3 s) x) 16 (zlen x / 4) x out);
    [ | exact LL | exact Hm | exact Ho | | apply settings3_eqb_spec | destruct all; discriminate].
  - intros s o Hz. rewrite bc3_call; [rewrite slice_all; reflexivity|exact K|intros D _; apply nonempty_pos; auto|exact Hm|lia..].
  - intros n s st. cbn beta. unfold estimate_bc3. rewrite estimate_out by (rewrite ?LL; lia). cbn [bind].
    set (bl := bc3_layout _ _ _ x).
    assert (SA : slice bl 0 (zlen x / 16 * 2) = lay (if split_alpha_endpoints s then [raw 0 1; raw 1 1] else [raw 0 2]) (blocks 16 x)).
    { unfold bl, bc3_layout, bc3_fields.
      rewrite <- (lay_slice 16 [] (if split_alpha_endpoints s then [raw 0 1; raw 1 1] else [raw 0 2])
        ([raw 2 6] ++ colour_fields (decorrelation_mode3 s) (split_colour_endpoints3 s) 8 ++ [raw 12 4]) []
        (if split_alpha_endpoints s then [1; 1]%nat else [2]%nat)); [|constructor|apply fwidth_alphas|apply blocks_all; lia].
      rewrite blocks_count. replace (sum (if split_alpha_endpoints s then [1; 1]%nat else [2]%nat)) with 2%nat by (destruct (split_alpha_endpoints s); reflexivity).
      cbn [app sum fold_right]. f_equal; unfold zlen in *; lia. }
    assert (SC : slice bl (zlen x / 2) (zlen x / 16 * 4) = lay (colour_fields (decorrelation_mode3 s) (split_colour_endpoints3 s) 8) (blocks 16 x)).
    { unfold bl, bc3_layout, bc3_fields.
      rewrite <- (lay_slice 16 ((if split_alpha_endpoints s then [raw 0 1; raw 1 1] else [raw 0 2]) ++ [raw 2 6])
        (colour_fields (decorrelation_mode3 s) (split_colour_endpoints3 s) 8) [raw 12 4]
        ((if split_alpha_endpoints s then [1; 1]%nat else [2]%nat) ++ [6%nat]) (colour_widths (split_colour_endpoints3 s)));
      [|apply Forall2_app; [apply fwidth_alphas|repeat constructor; apply fwidth_raw; lia]|apply fwidth_colours|apply blocks_all; lia].
      rewrite colour_sum, blocks_count, <- app_assoc.
      replace (sum ((if split_alpha_endpoints s then [1; 1]%nat else [2]%nat) ++ [6%nat])) with 8%nat by (destruct (split_alpha_endpoints s); reflexivity).
      f_equal; unfold zlen in *; lia. }
    rewrite SA. cbn [bc3_shown est_all].
    destruct (estimate_compressed_size e st _ n) as [[za|e1] st1] eqn:E1; [|reflexivity].
    rewrite ptr_add_in by (cbn [p_buf p_off buf_of m_out]; unfold bl; rewrite zlen_splice by (rewrite ?LL; lia); lia).
    cbn [bind]. unfold padd. cbn [p_buf p_off]. unfold bl. rewrite estimate_out by (rewrite ?LL; lia). cbn [bind].
    fold bl. rewrite Z.add_0_l, SC.
    destruct (estimate_compressed_size e st1 _ n) as [[zc|e1] st2] eqn:E2; [|reflexivity].
    pose proof (HS _ _ _ _ _ E1). pose proof (HS _ _ _ _ _ E2).
    replace (za + zc <=? usize_max v) with true by lia. rewrite Z.add_0_l. reflexivity.
Qed.
