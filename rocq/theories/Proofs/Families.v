(** The block shapes of the kernels are the fields of the layout specification,
    and the untransform shapes undo them. *)
From Verif Require Import Base.Bytes Base.Res Model.Color565 Model.Ycc Model.Kernel
  Proofs.Color565Facts Proofs.KernelCheck Proofs.KernelLoop Proofs.KernelFun Proofs.Shapes Spec.YCoCg Spec.Layout
  Proofs.LayoutFacts Proofs.ShapeLayout.
From Coq Require Import ZifyBool ZifyNat.

Record FAM (v : variant) (sht shu : shape) (k : nat) (fs : list field) (ws : list nat) : Prop := {
  fam_ft : shape_fine sht;
  fam_fu : shape_fine shu;
  fam_it : sh_ins sht = [Z.of_nat k];
  fam_ot : Forall2 (tmpl_field v k) (sh_outs sht) fs;
  fam_iu : sh_ins shu = map Z.of_nat ws;
  fam_ou : exists t, sh_outs shu = [t] /\ List.length t = k /\
     (forall b, List.length b = k -> tmpl_blk v t (map (fun f => f b) fs) = b) /\
     rebuilds k fs ws (tmpl_blk v t);
  fam_fw : Forall2 (fwidth k) fs ws;
  fam_sum : sum ws = k
}.

Lemma dec_rec_col : forall v a b, let r := recorrelate v (u16le a b) in
  lo8 (ycocg v (u16le (lo8 r) (hi8 r))) = a /\ hi8 (ycocg v (u16le (lo8 r) (hi8 r))) = b.
Proof.
  intros v a b r. pose proof (u16le_bound a b) as B. pose proof (recorrelate_bound v _ B) as B'.
  unfold r. rewrite u16le_lo_hi by exact B'. rewrite <- ycocg_decorrelate by exact B'.
  rewrite decorrelate_recorrelate by exact B. split; [apply lo8_u16le|apply hi8_u16le].
Qed.
Lemma rec_dec_col : forall v a b, let r := ycocg v (u16le a b) in
  lo8 (recorrelate v (u16le (lo8 r) (hi8 r))) = a /\ hi8 (recorrelate v (u16le (lo8 r) (hi8 r))) = b.
Proof.
  intros v a b r. pose proof (u16le_bound a b) as B. pose proof (ycocg_bound v _ B) as B'.
  unfold r. rewrite u16le_lo_hi by exact B'. rewrite <- ycocg_decorrelate by exact B.
  rewrite recorrelate_decorrelate by exact B. split; [apply lo8_u16le|apply hi8_u16le].
Qed.
Lemma col_none : forall a b, lo8 (ycocg VNone (u16le a b)) = a /\ hi8 (ycocg VNone (u16le a b)) = b.
Proof. intros. split; [apply lo8_u16le|apply hi8_u16le]. Qed.
Lemma dec_spec : forall v a b, decorrelate v (u16le a b) = ycocg v (u16le a b).
Proof. intros. apply ycocg_decorrelate. apply u16le_bound. Qed.

(** [l] of known length, byte by byte *)
Ltac bytes_of l H :=
  repeat (let b := fresh "b" in destruct l as [|b l]; [simpl in H; lia | ]);
  [ ].
Ltac list_len l H :=
  lazymatch type of H with
  | List.length l = O => destruct l; [clear H | discriminate H]
  | List.length l = S ?n => let b := fresh "b" in let l' := fresh "l" in
      destruct l as [|b l']; [discriminate H | cbn [List.length] in H; apply Nat.succ_inj in H; list_len l' H]
  end.
Ltac col_simp :=
  repeat first
    [ rewrite (fun v a b => proj1 (dec_rec_col v a b)) | rewrite (fun v a b => proj2 (dec_rec_col v a b))
    | rewrite (fun v a b => proj1 (rec_dec_col v a b)) | rewrite (fun v a b => proj2 (rec_dec_col v a b))
    | rewrite (fun a b => proj1 (col_none a b)) | rewrite (fun a b => proj2 (col_none a b))
    | rewrite dec_spec ].
Ltac eval_bytes :=
  cbv [seval ycc_scalar znth tmpl_blk bc1_fields bc2_fields bc3_fields colour_fields colour raw both byt col
       nth map app firstn skipn Z.to_nat Pos.to_nat Pos.iter_op Nat.add zseq Z.add Pos.add Pos.succ fold_right
       sh_outs sh_ins Z.of_nat Pos.of_succ_nat].
Ltac break_widths :=
  repeat match goal with
  | H : widths _ _ |- _ => unfold widths in H
  | H : Forall2 _ ?cs [] |- _ => inversion H; subst; clear H
  | H : Forall2 _ ?cs (_ :: _) |- _ => inversion H; subst; clear H
  | H : List.length ?l = _ |- _ => is_var l; list_len l H
  end.

Ltac fam :=
  constructor;
  [ apply shape_ok_fine; vm_compute; reflexivity
  | apply shape_ok_fine; vm_compute; reflexivity
  | reflexivity
  | repeat first [apply Forall2_nil | apply Forall2_cons]; intros blk H; list_len blk H; eval_bytes; col_simp; reflexivity
  | reflexivity
  | eexists; split; [reflexivity|]; split; [reflexivity|]; split;
    [ intros blk H; list_len blk H; eval_bytes; col_simp; reflexivity
    | intros cs H; split; [reflexivity|]; break_widths; eval_bytes; col_simp; reflexivity ]
  | repeat first [apply Forall2_nil | apply Forall2_cons]; intros blk H; list_len blk H; reflexivity
  | reflexivity ].

Lemma fam_bc1_std : FAM VNone sh_bc1_std_t sh_bc1_std_u 8 (bc1_fields VNone false) [4; 4]%nat.
Proof. fam. Qed.
Lemma fam_bc1_rec : forall v, FAM v sh_bc1_rec_t sh_bc1_rec_u 8 (bc1_fields v false) [4; 4]%nat.
Proof. intros v. fam. Qed.
Lemma fam_bc1_sc : FAM VNone sh_bc1_sc_t sh_bc1_sc_u 8 (bc1_fields VNone true) [2; 2; 4]%nat.
Proof. fam. Qed.
Lemma fam_bc1_scr : forall v, FAM v sh_bc1_scr_t sh_bc1_scr_u 8 (bc1_fields v true) [2; 2; 4]%nat.
Proof. intros v. fam. Qed.
Lemma fam_bc2_std : FAM VNone sh_bc2_std_t sh_bc2_std_u 16 (bc2_fields VNone false) [8; 4; 4]%nat.
Proof. fam. Qed.
Lemma fam_bc2_rec : forall v, FAM v sh_bc2_rec_t sh_bc2_rec_u 16 (bc2_fields v false) [8; 4; 4]%nat.
Proof. intros v. fam. Qed.
Lemma fam_bc2_sc : FAM VNone sh_bc2_sc_t sh_bc2_sc_u 16 (bc2_fields VNone true) [8; 2; 2; 4]%nat.
Proof. fam. Qed.
Lemma fam_bc2_scr : forall v, FAM v sh_bc2_scr_t sh_bc2_scr_u 16 (bc2_fields v true) [8; 2; 2; 4]%nat.
Proof. intros v. fam. Qed.
Lemma fam_bc3_std : FAM VNone sh_bc3_std_t sh_bc3_std_u 16 (bc3_fields VNone false false) [2; 6; 4; 4]%nat.
Proof. fam. Qed.
Lemma fam_bc3_rec : forall v, FAM v sh_bc3_rec_t sh_bc3_rec_u 16 (bc3_fields v false false) [2; 6; 4; 4]%nat.
Proof. intros v. fam. Qed.
Lemma fam_bc3_sc : FAM VNone sh_bc3_sc_t sh_bc3_sc_u 16 (bc3_fields VNone false true) [2; 6; 2; 2; 4]%nat.
Proof. fam. Qed.
Lemma fam_bc3_scr : forall v, FAM v sh_bc3_scr_t sh_bc3_scr_u 16 (bc3_fields v false true) [2; 6; 2; 2; 4]%nat.
Proof. intros v. fam. Qed.
Lemma fam_bc3_sa : FAM VNone sh_bc3_sa_t sh_bc3_sa_u 16 (bc3_fields VNone true false) [1; 1; 6; 4; 4]%nat.
Proof. fam. Qed.
Lemma fam_bc3_sar : forall v, FAM v sh_bc3_sar_t sh_bc3_sar_u 16 (bc3_fields v true false) [1; 1; 6; 4; 4]%nat.
Proof. intros v. fam. Qed.
Lemma fam_bc3_sac : FAM VNone sh_bc3_sac_t sh_bc3_sac_u 16 (bc3_fields VNone true true) [1; 1; 6; 2; 2; 4]%nat.
Proof. fam. Qed.
Lemma fam_bc3_sacr : forall v, FAM v sh_bc3_sacr_t sh_bc3_sacr_u 16 (bc3_fields v true true) [1; 1; 6; 2; 2; 4]%nat.
Proof. intros v. fam. Qed.
