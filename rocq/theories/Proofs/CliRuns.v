(** The command line tool: progress, the one-file-at-a-time version, round trips. *)
From Verif Require Import Base.Bytes Base.Res Model.Color565 Model.Kernel Model.Transform Model.Auto Model.Builders Model.Bundle Model.Dds Model.Handlers Model.Cli.
From Verif Require Import Spec.Layout Spec.Files Spec.Dds Spec.Handlers Spec.Cli.
From Verif Require Import Proofs.DdsFacts Proofs.DdsHandler Proofs.HandlersFacts Proofs.CliFacts.
From Coq Require Import Ascii String ZifyBool ZifyNat.
Open Scope list_scope.

Lemma apart_separate I O entries : apart I O -> files_below I entries ->
  forall p q, In p entries -> In q entries -> target_of I O p <> Some q.
Proof.
  intros (A1 & A2) (_ & F) p q Hp Hq K. rewrite Forall_forall in F.
  destruct (F p Hp) as (r & -> & _). destruct (F q Hq) as (r1 & -> & _). rewrite target_app in K. injection K as K.
  apply app_eq_app in K. destruct K as (l & [(K & _)|(K & _)]); [exact (A2 l K)|exact (A1 l K)].
Qed.
Lemma same_extension utf8 d1 d2 r : r <> [] -> extension_of utf8 (d1 ++ r) = extension_of utf8 (d2 ++ r).
Proof.
  intros N. destruct (exists_last N) as (r1 & a & ->). unfold extension_of, extract_lowercase_extension.
  rewrite !app_assoc, !rev_app_distr. reflexivity.
Qed.

Section Run.
Context {B W : Type}.
Variable utf8 : string -> bool.
Variable cmd : command B.
Variable handlers : list (handler B W).
Variables I O : components.
Notation step := (step utf8 cmd handlers I O).
Notation run := (run utf8 cmd handlers I O).
Notation reachable := (reachable utf8 cmd handlers I O).
Notation task_step := (task_step utf8 cmd handlers).

(** ** How long it takes *)
Definition left_to_do (ph : phase (B := B) (W := W)) : Z :=
  match ph with
  | Waiting => zlen handlers + 7
  | HasDirectory => zlen handlers + 6
  | Measured _ => zlen handlers + 5
  | Choosing _ _ rest => zlen rest + 4
  | Accepted _ _ _ => 4
  | Created _ _ _ => 3
  | Working _ _ _ _ _ => 2
  | Returned (ROk _) => 1
  | _ => 0
  end.
Lemma left_nonneg ph : 0 <= left_to_do ph.
Proof. pose proof (zlen_nonneg _ handlers). destruct ph as [| | |n x rest| | | |[]| | |]; cbn [left_to_do]; try lia. pose proof (zlen_nonneg _ rest). lia. Qed.
Lemma task_measure p i o partial fs ph fs1 ph1 : task_step p i o partial fs ph fs1 ph1 ->
  left_to_do ph1 + (if partial then 0 else 1) <= left_to_do ph.
Proof.
  pose proof (zlen_nonneg _ handlers) as LH.
  intros S. destruct S as [| | | | | |fs n x h rest w w1 F A|fs n x h rest w w1 F A| |fs n x h rest w why F A|fs n x h rest w why F A
    | | | | | | | | | | | | |fs ph x M N|]; cbn [left_to_do]; rewrite ?zlen_cons; try pose proof (zlen_nonneg _ rest); try lia.
  - rewrite zlen_nil. lia.
  - destruct ph as [| | |n y rest| | | | | | |]; try discriminate M; cbn [left_to_do]; try lia. pose proof (zlen_nonneg _ rest). lia.
Qed.
Lemma run_bound n entries fs s : run n (start entries fs) s ->
  Z.of_nat n + sum (map (fun k => left_to_do (snd k)) (s_tasks s)) <= (zlen handlers + 7) * zlen entries.
Proof.
  intros R. remember (start entries fs) as s0 eqn:E. induction R as [s|n s s1 partial s2 R IH S].
  - subst s. unfold start. cbn [s_tasks]. rewrite map_map. cbn [snd left_to_do].
    induction entries as [|a l IHl]; [cbn [map]; rewrite zlen_nil; cbn [sum fold_right]; lia|]. cbn [map]. rewrite sum_cons, zlen_cons. lia.
  - specialize (IH E). destruct S as [partial fs1 fs2 pre p ph ph1 post total t T S|fs1 pre p post total T|fs1 pre p k post total]; cbn [s_tasks] in *;
      rewrite map_app, sum_app in *; cbn [map snd] in *; rewrite sum_cons in *.
    + pose proof (task_measure _ _ _ _ _ _ _ _ S). destruct partial; lia.
    + cbn [left_to_do] in *. pose proof (zlen_nonneg _ handlers). lia.
    + cbn [left_to_do] in *. lia.
Qed.
Lemma run_short n entries fs s : run n (start entries fs) s -> Z.of_nat n <= (zlen handlers + 7) * zlen entries.
Proof.
  intros R. pose proof (run_bound _ _ _ _ R) as K.
  assert (0 <= sum (map (fun k => left_to_do (snd k)) (s_tasks s))).
  { generalize (s_tasks s). clear. intros l. induction l as [|k l IH]; [cbn; lia|]. cbn [map]. rewrite sum_cons. pose proof (left_nonneg (snd k)). lia. }
  lia.
Qed.

(** ** Something can always be done *)
Lemma task_progress (w : W) p i o fs ph : ~ finished ph -> (forall n, ph <> Returned (ROk n)) -> exists fs1 ph1, task_step p i o false fs ph fs1 ph1.
Proof.
  intros NF NR. destruct ph as [| |n|n x rest|n x h|n x h|n x h d now|[n|e]|n| |].
  - exists fs, HasDirectory. constructor.
  - exists fs, (Measured 0). constructor.
  - exists fs. eexists. apply step_open_fails.
  - destruct (fs i) as [x1|] eqn:F.
    + destruct (list_eq_dec Byte.byte_eq_dec x1 x) as [->|N].
      * destruct rest as [|h rest]; [exists fs; eexists; apply step_no_handler|].
        destruct (accepts utf8 cmd h x p w) as [[[|] w1]|why|why] eqn:A; exists fs; eexists.
        -- exact (step_accepted _ _ _ _ _ _ _ _ _ _ _ _ _ F A).
        -- exact (step_declined _ _ _ _ _ _ _ _ _ _ _ _ _ F A).
        -- exact (step_ask_panics _ _ _ _ _ _ _ _ _ _ _ _ _ F A).
        -- exact (step_ask_undefined _ _ _ _ _ _ _ _ _ _ _ _ _ F A).
      * exists fs, Undefined. apply step_input_changed with (x := x); [reflexivity|]. rewrite F. congruence.
    + exists fs, Undefined. apply step_input_changed with (x := x); [reflexivity|]. rewrite F. discriminate.
  - exists fs. eexists. apply step_create_fails.
  - exists fs. eexists. apply step_map_fails.
  - destruct (fs i) as [x1|] eqn:F; [|exists fs, Undefined; apply step_input_changed with (x := x); [reflexivity|]; rewrite F; discriminate].
    destruct (list_eq_dec Byte.byte_eq_dec x1 x) as [->|N]; [|exists fs, Undefined; apply step_input_changed with (x := x); [reflexivity|]; rewrite F; congruence].
    destruct (fs o) as [d1|] eqn:G; [|exists fs, Undefined; apply step_output_changed; rewrite G; discriminate].
    destruct (list_eq_dec Byte.byte_eq_dec d1 now) as [->|N]; [|exists fs, Undefined; apply step_output_changed; rewrite G; congruence].
    destruct (work cmd h x d w) as [[[[[]|e] y] w1]|why|why] eqn:A.
    + eexists. eexists. exact (step_done _ _ _ _ _ _ _ _ _ _ _ _ _ _ _ F G A).
    + eexists. eexists. exact (step_failed _ _ _ _ _ _ _ _ _ _ _ _ _ _ _ _ F G A).
    + eexists. eexists. exact (step_panics _ _ _ _ _ _ _ _ _ _ _ _ _ _ F G A).
    + eexists. eexists. exact (step_work_undefined _ _ _ _ _ _ _ _ _ _ _ _ _ _ F G A).
  - exfalso. exact (NR n eq_refl).
  - exfalso. apply NF. exact Logic.I.
  - exfalso. apply NF. exact Logic.I.
  - exfalso. apply NF. exact Logic.I.
  - exfalso. apply NF. exact Logic.I.
Qed.
Lemma run_trans n m s1 s2 s3 : run n s1 s2 -> run m s2 s3 -> exists k, run k s1 s3.
Proof.
  intros R1 R2. induction R2 as [s|m s s1' partial s2' R2 IH S].
  - exists n. exact R1.
  - destruct (IH R1) as (k & K). eexists. exact (run_step _ _ _ _ _ _ _ _ _ _ K S).
Qed.
Lemma run_one partial s1 s2 : step partial s1 s2 -> exists k, run k s1 s2.
Proof. intros S. eexists. exact (run_step _ _ _ _ _ _ _ _ _ _ (run_none _ _ _ _ _ _) S). Qed.
Lemma unfinished_step (w : W) fs pre p ph post total :
  (exists t, target_of I O p = Some t) -> ~ finished ph -> exists s2 ph1, step false (State fs (pre ++ (p, ph) :: post) total) s2 /\
  s_tasks s2 = pre ++ (p, ph1) :: post /\ left_to_do ph1 < left_to_do ph.
Proof.
  intros (t & T) NF.
  assert (C : (exists n, ph = Returned (ROk n)) \/ (forall n, ph <> Returned (ROk n))).
  { destruct ph as [| |n|n x rest|n x h|n x h|n x h d now|[n|e]|n| |]; try (right; discriminate). left. exists n. reflexivity. }
  destruct C as [(n & ->)|NR].
  - eexists. exists (Counted n). split; [apply step_count|]. split; [reflexivity|cbn [left_to_do]; lia].
  - destruct (task_progress w p (render p) (render t) fs ph NF NR) as (fs1 & ph1 & S). eexists. exists ph1. split; [exact (step_task _ _ _ _ _ _ _ _ _ _ _ _ _ _ _ T S)|].
    split; [reflexivity|]. pose proof (task_measure _ _ _ _ _ _ _ _ S) as K. cbn beta iota in K. lia.
Qed.
Definition finished_dec (ph : phase (B := B) (W := W)) : {finished ph} + {~ finished ph}.
Proof. destruct ph as [| |n|n x rest|n x h|n x h|n x h d now|[n|e]|n| |]; cbn; auto. Defined.
Lemma can_finish (w : W) : forall k s, sum (map (fun k => left_to_do (snd k)) (s_tasks s)) < Z.of_nat k ->
  Forall (fun p => exists t, target_of I O p = Some t) (map fst (s_tasks s)) ->
  exists n s2, run n s s2 /\ map fst (s_tasks s2) = map fst (s_tasks s) /\ Forall (fun k => finished (snd k)) (s_tasks s2).
Proof.
  assert (Mz : forall l : list (components * phase (B := B) (W := W)), 0 <= sum (map (fun k => left_to_do (snd k)) l)).
  { intros l. induction l as [|a l IHl]; [cbn; lia|]. cbn [map]. rewrite sum_cons. pose proof (left_nonneg (snd a)). lia. }
  induction k as [|k IH]; intros s M F; [pose proof (Mz (s_tasks s)); lia|].
  destruct (Forall_Exists_dec (fun k => finished (snd k)) (fun k => finished_dec (snd k)) (s_tasks s)) as [D|D];
    [exists 0%nat, s; split; [constructor|]; split; [reflexivity|exact D]|].
  apply Exists_exists in D. destruct D as ([p ph] & Hk & NF). cbn [snd] in NF. apply in_split in Hk. destruct Hk as (pre & post & Ek).
  destruct s as [fs tasks total]. cbn [s_tasks] in *. subst tasks.
  assert (T : exists t, target_of I O p = Some t).
  { rewrite map_app in F. cbn [map fst] in F. apply Forall_app in F. destruct F as (_ & F). inversion F; assumption. }
  destruct (unfinished_step w fs pre p ph post total T NF) as (s2 & ph1 & S & E2 & Less).
  rewrite map_app, sum_app in M. cbn [map snd] in M. rewrite sum_cons in M.
  destruct (IH s2) as (n & s3 & R & Es & Fin).
  - rewrite E2, map_app, sum_app. cbn [map snd]. rewrite sum_cons. lia.
  - rewrite E2, map_app. cbn [map fst]. rewrite map_app in F. exact F.
  - destruct (run_one _ _ _ S) as (k1 & R1). destruct (run_trans _ _ _ _ _ R1 R) as (k2 & R2).
    exists k2, s3. split; [exact R2|]. split; [|exact Fin]. rewrite Es, E2, !map_app. reflexivity.
Qed.

(** ** One file at a time *)
Notation "s1 ~> s2" := (exists k, run k s1 s2) (at level 70).
Lemma go_trans s1 s2 s3 : (s1 ~> s2) -> (s2 ~> s3) -> (s1 ~> s3).
Proof. intros (a & A) (b & Bb). exact (run_trans _ _ _ _ _ A Bb). Qed.
Lemma go_task pre p post total t partial fs ph fs1 ph1 : target_of I O p = Some t -> task_step p (render p) (render t) partial fs ph fs1 ph1 ->
  State fs (pre ++ (p, ph) :: post) total ~> State fs1 (pre ++ (p, ph1) :: post) total.
Proof. intros T S. exact (run_one _ _ _ (step_task _ _ _ _ _ _ _ _ _ _ _ _ _ _ _ T S)). Qed.

Lemma go_file (o : io) pre p post total t n x h fs (w : W) r fs1 w1 : target_of I O p = Some t -> fs (render p) = Some x ->
  into_new_file o (work cmd h x) (Some (render p)) (zlen x) (render t) fs w = Ok (r, fs1, w1) ->
  State fs (pre ++ (p, Accepted n x h) :: post) total ~>
  State fs1 (pre ++ (p, Returned (match r with ROk _ => ROk n | RErr e => RErr (CFile e) end)) :: post) total.
Proof.
  intros T F. unfold into_new_file, create_preallocated. destruct (create_ok o (render t)).
  2:{ intros E. injection E as <- <- <-. apply (go_task pre p post total t false); [exact T|apply step_create_fails]. }
  set (d := map (fresh o (render t) (zlen x)) (zseq 0 (Z.to_nat (zlen x)))).
  assert (Ld : zlen d = zlen x) by (apply zlen_fresh; apply zlen_nonneg).
  assert (Make : State fs (pre ++ (p, Accepted n x h) :: post) total ~> State (set_file fs (render t) d) (pre ++ (p, Created n x h) :: post) total).
  { apply (go_task pre p post total t false); [exact T|]. exact (step_create _ _ _ _ _ _ _ _ _ _ _ Ld). }
  destruct (map_ok o (render t)); cbn [negb].
  2:{ intros E. injection E as <- <- <-. refine (go_trans _ _ _ Make _). apply (go_task pre p post total t false); [exact T|apply step_map_fails]. }
  destruct (String.eqb_spec (render p) (render t)) as [|N]; [discriminate|]. rewrite set_same.
  assert (Mapped : State fs (pre ++ (p, Accepted n x h) :: post) total ~> State (set_file fs (render t) d) (pre ++ (p, Working n x h d d) :: post) total).
  { refine (go_trans _ _ _ Make _). apply (go_task pre p post total t false); [exact T|]. apply step_map; [exact N|apply set_same|exact Ld]. }
  assert (F1 : set_file fs (render t) d (render p) = Some x) by (rewrite set_other by exact N; exact F).
  destruct (work cmd h x d w) as [[[[[]|e] y] w2]|why|why] eqn:A; cbn [bind]; intros E; [| |discriminate E|discriminate E]; injection E as <- <- <-.
  - refine (go_trans _ _ _ Mapped _). apply (go_task pre p post total t false); [exact T|].
    exact (step_done _ _ _ _ _ _ _ _ _ _ _ _ _ _ _ F1 (set_same _ _ _) A).
  - refine (go_trans _ _ _ Mapped _). apply (go_task pre p post total t false); [exact T|].
    exact (step_failed _ _ _ _ _ _ _ _ _ _ _ _ _ _ _ _ F1 (set_same _ _ _) A).
Qed.
Lemma go_choose (o : io) pre p post total t n x fs : target_of I O p = Some t -> fs (render p) = Some x ->
  forall rest (w : W) r fs1 w1,
  try_file_handlers (fun h => accepts utf8 cmd h x p) (fun h => into_new_file o (work cmd h x) (Some (render p)) (zlen x) (render t)) rest fs w = Ok (r, fs1, w1) ->
  State fs (pre ++ (p, Choosing n x rest) :: post) total ~>
  State fs1 (pre ++ (p, Returned (match r with ROk _ => ROk n | RErr e => RErr (CFile e) end)) :: post) total.
Proof.
  intros T F. induction rest as [|h rest IH]; intros w r fs1 w1 E; cbn [try_file_handlers] in E.
  - injection E as <- <- <-. apply (go_task pre p post total t false); [exact T|apply step_no_handler].
  - destruct (accepts utf8 cmd h x p w) as [[[|] w2]|why|why] eqn:A; cbn [bind] in E; [| |discriminate E|discriminate E].
    + refine (go_trans _ _ _ (go_task pre p post total t false _ _ _ _ T (step_accepted _ _ _ _ _ _ _ _ _ _ _ _ _ F A)) _).
      destruct (into_new_file o (work cmd h x) (Some (render p)) (zlen x) (render t) fs w2) as [[[[u|e] fs2] w3]|why|why] eqn:Q; cbn [bind] in E; [| |discriminate E|discriminate E];
        injection E as <- <- <-; exact (go_file o pre p post total t n x h fs w2 _ _ _ T F Q).
    + refine (go_trans _ _ _ (go_task pre p post total t false _ _ _ _ T (step_declined _ _ _ _ _ _ _ _ _ _ _ _ _ F A)) _).
      exact (IH w2 r fs1 w1 E).
Qed.
Lemma multiple_eq o p t fs (w : W) : multiple_handlers utf8 cmd handlers o p t fs w =
  match map_input o fs (render p) with
  | RErr e => Ok (RErr e, fs, w)
  | ROk x => try_file_handlers (fun h => accepts utf8 cmd h x p) (fun h => into_new_file o (work cmd h x) (Some (render p)) (zlen x) (render t)) handlers fs w
  end.
Proof. unfold multiple_handlers, accepts, work. destruct cmd; reflexivity. Qed.
Lemma go_process a pre p post total fs (w : W) r fs1 w1 :
  process_file utf8 cmd handlers I O a p fs w = Ok (r, fs1, w1) ->
  State fs (pre ++ (p, Waiting) :: post) total ~> State fs1 (pre ++ (p, Returned r) :: post) total.
Proof.
  unfold process_file. destruct (target_of I O p) as [t|] eqn:T; [|discriminate]. destruct (dir_ok a); cbn [negb].
  2:{ intros E. injection E as <- <- <-. apply (go_task pre p post total t false); [exact T|apply step_no_directory]. }
  set (n := match fs (render p) with Some x => if metadata_ok a then zlen x else 0 | None => 0 end).
  assert (Ms : State fs (pre ++ (p, Waiting) :: post) total ~> State fs (pre ++ (p, Measured n) :: post) total).
  { refine (go_trans _ _ _ (go_task pre p post total t false _ _ _ _ T (step_directory _ _ _ _ _ _ _)) _).
    apply (go_task pre p post total t false); [exact T|]. unfold n. destruct (fs (render p)) as [x|] eqn:F; [|apply step_no_metadata].
    destruct (metadata_ok a); [|apply step_no_metadata]. exact (step_metadata _ _ _ _ _ _ _ _ F). }
  rewrite multiple_eq. unfold map_input. destruct (fs (render p)) as [x|] eqn:F.
  - destruct (open_ok (file_io a) (render p) && map_ok (file_io a) (render p)).
    + destruct (try_file_handlers _ _ handlers fs w) as [[[[u|e] fs2] w2]|why|why] eqn:Q; cbn [bind]; intros E; [| |discriminate E|discriminate E];
        injection E as <- <- <-; refine (go_trans _ _ _ Ms _);
        refine (go_trans _ _ _ (go_task pre p post total t false _ _ _ _ T (step_open _ _ _ _ _ _ _ n x F)) _);
        exact (go_choose (file_io a) pre p post total t n x fs T F handlers w _ _ _ Q).
    + cbn [bind]. intros E. injection E as <- <- <-. refine (go_trans _ _ _ Ms _). apply (go_task pre p post total t false); [exact T|apply step_open_fails].
  - cbn [bind]. intros E. injection E as <- <- <-. refine (go_trans _ _ _ Ms _). apply (go_task pre p post total t false); [exact T|apply step_open_fails].
Qed.
Lemma go_files debug : forall entries done fs (w : W) total total1 fs1 w1,
  process_files utf8 cmd handlers I O debug entries fs w total = Ok (total1, fs1, w1) ->
  exists ended, map fst ended = map snd entries /\ Forall (fun k => finished (snd k)) ended /\
  State fs (done ++ map (fun p => (p, Waiting)) (map snd entries)) total ~> State fs1 (done ++ ended) total1.
Proof.
  induction entries as [|[a p] entries IH]; intros done fs w total total1 fs1 w1 E; cbn [process_files] in E.
  - injection E as <- <- <-. exists []. split; [reflexivity|]. split; [constructor|]. exists 0%nat. constructor.
  - destruct (process_file utf8 cmd handlers I O a p fs w) as [[[[n|e] fs2] w2]|why|why] eqn:Q; cbn [bind] in E; [| |discriminate E|discriminate E].
    + destruct ((2 ^ 64 <=? total + n) && debug); [discriminate E|].
      destruct (IH (done ++ [(p, Counted n)]) _ _ _ _ _ _ E) as (ended & E1 & F & G). exists ((p, Counted n) :: ended).
      split; [cbn [map fst snd]; rewrite E1; reflexivity|]. split; [constructor; [exact Logic.I|exact F]|].
      rewrite <- !app_assoc in G. cbn [app] in G. cbn [map snd].
      refine (go_trans _ _ _ (go_process a done p _ total fs w _ _ _ Q) _). refine (go_trans _ _ _ _ G).
      exact (run_one _ _ _ (step_count _ _ _ _ _ _ _ _ _ _ _)).
    + destruct (IH (done ++ [(p, Returned (RErr e))]) _ _ _ _ _ _ E) as (ended & E1 & F & G). exists ((p, Returned (RErr e)) :: ended).
      split; [cbn [map fst snd]; rewrite E1; reflexivity|]. split; [constructor; [exact Logic.I|exact F]|].
      rewrite <- !app_assoc in G. cbn [app] in G. cbn [map snd].
      exact (go_trans _ _ _ (go_process a done p _ total fs w _ _ _ Q) G).
Qed.
Lemma sequential debug entries fs (w : W) total fs1 w1 : process_files utf8 cmd handlers I O debug entries fs w 0 = Ok (total, fs1, w1) ->
  exists s, reachable (map snd entries) fs s /\ s_files s = fs1 /\ s_total s = total /\ Forall (fun k => finished (snd k)) (s_tasks s).
Proof.
  intros E. destruct (go_files debug entries [] fs w 0 total fs1 w1 E) as (ended & E1 & F & G). cbn [app] in G.
  exists (State fs1 ended total). split; [exact G|]. split; [reflexivity|]. split; [reflexivity|exact F].
Qed.
End Run.
