(** Searching directories with links. *)
From Verif Require Import Base.Bytes Model.Cli Model.Links Spec.Cli Spec.Links Proofs.CliFacts.
From Coq Require Import ZifyBool ZifyNat.
Open Scope list_scope.
Open Scope Z_scope.

Lemma node_ind2 (P : node -> Prop) : P NFile -> (forall t, P (NLink t)) -> P (NDir None) ->
  (forall es, (forall n d, In (Some (n, d)) es -> P d) -> P (NDir (Some es))) -> forall n, P n.
Proof.
  intros HF HL HN HD. fix IH 1. intros [|[es|]|t]; [exact HF| |exact HN|exact (HL t)]. apply HD.
  revert es. fix IHl 1. intros [|[[m s]|] es] n t K; [destruct K| |].
  - destruct K as [K|K]; [|exact (IHl es n t K)]. assert (E : s = t) by congruence. rewrite <- E. exact (IH s).
  - destruct K as [K|K]; [discriminate K|]. exact (IHl es n t K).
Qed.

Lemma nodup_two : forall {A} (a b : list A), NoDup a -> NoDup b -> (forall p, In p a -> In p b -> False) -> NoDup (a ++ b).
Proof.
  intros A a b Na Nb D. induction Na as [|x a NI Na IH]; [exact Nb|]. cbn [List.app]. constructor.
  - rewrite in_app_iff. intros [K|K]; [exact (NI K)|exact (D x (or_introl eq_refl) K)].
  - apply IH. intros p P1 P2. exact (D p (or_intror P1) P2).
Qed.
Section Facts.
Variable disk : nat -> option node.
Lemma visit_sees : forall links n path p, In p (visit disk links path n) <-> exists r, p = path ++ r /\ sees disk links n r.
Proof.
  induction links as [|links IHl]; intros n; induction n as [|tg| |es IH] using node_ind2; intros path p; cbn [visit].
  1,5: split; [intros [<-|[]]; exists []; split; [symmetry; apply app_nil_r|apply sees_file]|intros (r & -> & S); inversion S; subst; left; symmetry; apply app_nil_r].
  1: split; [intros [<-|[]]; exists []; split; [symmetry; apply app_nil_r|apply sees_too_many]|intros (r & -> & S); inversion S; subst; left; symmetry; apply app_nil_r].
  1,4: split; [intros []|intros (r & _ & S); inversion S].
  1,3: rewrite in_flat_map; split;
    [intros ([[name d]|] & He & Hp); [|destruct Hp]; apply (IH name d He) in Hp; destruct Hp as (r & -> & S); exists (name :: r); rewrite <- app_assoc; split; [reflexivity|]; exact (sees_below _ _ _ _ _ _ He S)
    |intros (r & -> & S); inversion S as [| | | |? ? name d r1 He S1]; subst; exists (Some (name, d)); split; [exact He|]; apply (IH name d He); exists r1; rewrite <- app_assoc; split; [reflexivity|exact S1]].
  destruct (disk tg) as [d|] eqn:E.
  - rewrite IHl. split; intros (r & -> & S); exists r; (split; [reflexivity|]); [exact (sees_link _ _ _ _ _ E S)|].
    inversion S as [|? ? N| |? ? d1 ? E1 S1|]; subst; [congruence|]. rewrite E in E1. injection E1 as ->. exact S1.
  - split; [intros [<-|[]]; exists []; split; [symmetry; apply app_nil_r|apply sees_nothing; exact E]|].
    intros (r & -> & S). inversion S as [| | |? ? d1 ? E1 S1|]; subst; [left; symmetry; apply app_nil_r|congruence].
Qed.

Lemma nodup_entries : forall (V : components -> node -> list components) path es, NoDup (node_names es) ->
  (forall n d, In (Some (n, d)) es -> NoDup (V (path ++ [n]) d) /\ forall p, In p (V (path ++ [n]) d) -> exists r, p = (path ++ [n]) ++ r) ->
  NoDup (flat_map (fun e => match e with None => [] | Some (name, sub) => V (path ++ [name]) sub end) es).
Proof.
  intros V path es. induction es as [|[[m d]|] es IH]; intros ND H; cbn [flat_map]; [constructor| |].
  - cbn [node_names flat_map List.app] in ND. inversion ND as [|? ? NI ND']; subst.
    destruct (H m d (or_introl eq_refl)) as (H1 & H2). pose proof (IH ND' (fun n d K => H n d (or_intror K))) as T.
    apply nodup_two; [exact H1|exact T|]. intros p P1 P2. apply H2 in P1. destruct P1 as (r1 & ->).
    apply in_flat_map in P2. destruct P2 as ([[m2 d2]|] & He & P2); [|destruct P2]. destruct (H m2 d2 (or_intror He)) as (_ & H3).
    apply H3 in P2. destruct P2 as (r2 & E). rewrite <- !app_assoc in E. apply app_inv_head in E. injection E as <- _.
    apply NI. apply in_flat_map. exists (Some (m, d2)). split; [exact He|left; reflexivity].
  - exact (IH ND (fun n d K => H n d (or_intror K))).
Qed.
Lemma visit_names : forall links n path, well_named n -> (forall t d, disk t = Some d -> well_named d) -> NoDup (visit disk links path n).
Proof.
  induction links as [|links IHl]; intros n; induction n as [|tg| |es IH] using node_ind2; intros path W WD; cbn [visit].
  1,5,2: repeat constructor; intros [].
  1,4: constructor.
  2: destruct (disk tg) as [d|] eqn:E; [apply IHl; [exact (WD _ _ E)|exact WD]|repeat constructor; intros []].
  all: inversion W as [| | |? ND _ WN]; subst; clear W.
  - refine (nodup_entries (visit disk 0) path es ND _). intros n d K. split; [exact (IH n d K _ (WN n d K) WD)|].
    intros p Q. apply visit_sees in Q. destruct Q as (r & -> & _). exists r. reflexivity.
  - refine (nodup_entries (visit disk (S links)) path es ND _). intros n d K. split; [exact (IH n d K _ (WN n d K) WD)|].
    intros p Q. apply visit_sees in Q. destruct Q as (r & -> & _). exists r. reflexivity.
Qed.
Lemma sees_names : forall links n r, sees disk links n r -> well_named n -> (forall t d, disk t = Some d -> well_named d) -> Forall file_name r.
Proof.
  intros links n r S. induction S as [| | |n t d r E S IH|n es name d r He S IH]; intros W WD; try constructor.
  - exact (IH (WD _ _ E) WD).
  - inversion W as [| | |? _ FN _]; subst. rewrite Forall_forall in FN. apply FN. apply in_flat_map. exists (Some (name, d)). split; [exact He|left; reflexivity].
  - inversion W as [| | |? _ _ WN]; subst. exact (IH (WN _ _ He) WD).
Qed.
Lemma links_below : forall links dir es, well_named (NDir es) -> (forall t d, disk t = Some d -> well_named d) -> Forall file_name dir ->
  files_below dir (find_with_links disk links dir es).
Proof.
  intros links dir es W WD FD. split; [apply visit_names; assumption|]. rewrite Forall_forall. intros p H. apply visit_sees in H. destruct H as (r & -> & S).
  exists r. split; [reflexivity|]. split; [inversion S; discriminate|]. apply Forall_app. split; [exact FD|]. exact (sees_names _ _ _ S W WD).
Qed.
Lemma visit_plain : forall links t path, visit disk links path (plain t) = match t with Leaf => [path] | _ => find_all_files path t end.
Proof.
  intros links t. induction t as [| |es IH] using tree_rec_ind; intros path; [destruct links; reflexivity|destruct links; reflexivity|].
  assert (G : forall l, (forall n t, In (Some (n, t)) l -> In (Some (n, t)) es) ->
     flat_map (fun e => match e with None => [] | Some (name, sub) => visit disk links (path ++ [name]) sub end) (map (fun e => match e with None => None | Some (name, sub) => Some (name, plain sub) end) l) =
     flat_map (fun e => match e with None => [] | Some (name, Leaf) => [path ++ [name]] | Some (name, sub) => find_all_files (path ++ [name]) sub end) l).
  { induction l as [|[[n t]|] l IHl]; intros I; [reflexivity| |]; cbn [map flat_map]; [|apply IHl; intros m t K; apply I; right; exact K].
    rewrite (IH n t (I n t (or_introl eq_refl))), IHl by (intros m t0 K; apply I; right; exact K). destruct t; reflexivity. }
  cbn [plain find_all_files]. rewrite <- (G es (fun _ _ K => K)). destruct links; reflexivity.
Qed.
End Facts.

(** one file and two links back *)
Ltac names := repeat (apply Forall_cons || apply Forall_nil); split; cbn; try discriminate; repeat split; discriminate.
Definition trap : list (option (string * node)) := [Some ("a.dds", NFile); Some ("b", NLink 0); Some ("c", NLink 0)]%string.
Definition trap_disk (t : nat) : option node := match t with O => Some (NDir (Some trap)) | _ => None end.
Lemma trap_named : well_named (NDir (Some trap)) /\ forall t d, trap_disk t = Some d -> well_named d.
Proof.
  assert (W : well_named (NDir (Some trap))).
  { constructor.
    - cbn. repeat constructor; cbn; intuition discriminate.
    - cbn. names.
    - intros name d H. cbn [In trap] in H. repeat (destruct H as [H|H]; [injection H as <- <-; constructor|]). contradiction. }
  split; [exact W|]. intros [|t] d E; [injection E as <-; exact W|discriminate].
Qed.
Lemma trap_step : forall links dir, find_with_links trap_disk (S links) dir (Some trap) =
  (dir ++ ["a.dds"%string]) :: find_with_links trap_disk links (dir ++ ["b"%string]) (Some trap) ++ find_with_links trap_disk links (dir ++ ["c"%string]) (Some trap) ++ [].
Proof. reflexivity. Qed.
Lemma trap_sprung : forall links dir, 
  zlen (find_with_links trap_disk links dir (Some trap)) = 2 ^ (Z.of_nat links + 2) - 1 /\
  zlen (filter (fun p => String.eqb (List.last p ""%string) "a.dds") (find_with_links trap_disk links dir (Some trap))) = 2 ^ (Z.of_nat links + 1) - 1.
Proof.
  induction links as [|links IH]; intros dir.
  - unfold find_with_links. cbn [visit trap flat_map List.app filter]. rewrite !last_last. split; reflexivity.
  - rewrite trap_step. destruct (IH (dir ++ ["b"%string])) as (B1 & B2), (IH (dir ++ ["c"%string])) as (C1 & C2).
    set (X := find_with_links _ _ (dir ++ ["b"%string]) _) in *. set (Y := find_with_links _ _ (dir ++ ["c"%string]) _) in *. clearbody X Y.
    cbn [filter]. rewrite last_last, String.eqb_refl. rewrite app_nil_r, filter_app.
    assert (P2 : 2 ^ (Z.of_nat (S links) + 2) = 2 * 2 ^ (Z.of_nat links + 2)) by (rewrite <- Z.pow_succ_r by lia; f_equal; lia).
    assert (P1 : 2 ^ (Z.of_nat (S links) + 1) = 2 * 2 ^ (Z.of_nat links + 1)) by (rewrite <- Z.pow_succ_r by lia; f_equal; lia).
    rewrite P1, P2. clear P1 P2 IH. generalize dependent (2 ^ (Z.of_nat links + 2)). generalize dependent (2 ^ (Z.of_nat links + 1)). intros a B2 C2 b B1 C1.
    unfold zlen in *. cbn [List.length]. rewrite !app_length. unfold components in *. split; lia.
Qed.
