(** The block shapes of a big-endian machine are the fields of Spec/BigEndian.v
    (generated by tools/gen_be.py from Proofs/Families.v). *)
From Verif Require Import Base.Bytes Base.Res Model.Color565 Model.Ycc Model.Kernel
  Proofs.Color565Facts Proofs.KernelCheck Proofs.KernelLoop Proofs.KernelFun Proofs.Shapes Proofs.BeShapes Spec.YCoCg Spec.Layout
  Spec.BigEndian Proofs.LayoutFacts Proofs.ShapeLayout Proofs.Families.
From Coq Require Import ZifyBool ZifyNat.

Lemma u16be_le : forall a b, u16be a b = u16le b a.
Proof. intros. unfold u16be, u16le. lia. Qed.

Ltac be_col_simp :=
  rewrite ?u16be_le;
  repeat first
    [ rewrite (fun v a b => proj1 (dec_rec_col v a b)) | rewrite (fun v a b => proj2 (dec_rec_col v a b))
    | rewrite (fun v a b => proj1 (rec_dec_col v a b)) | rewrite (fun v a b => proj2 (rec_dec_col v a b))
    | rewrite (fun a b => proj1 (col_none a b)) | rewrite (fun a b => proj2 (col_none a b))
    | rewrite dec_spec ].
Ltac be_eval_bytes :=
  cbv [seval ycc_scalar znth tmpl_blk be_bc1_fields be_bc2_fields be_bc3_fields be_colour_fields be_colour raw both byt bcol
       nth map app firstn skipn Z.to_nat Pos.to_nat Pos.iter_op Nat.add zseq Z.add Pos.add Pos.succ fold_right
       sh_outs sh_ins Z.of_nat Pos.of_succ_nat].
Ltac be_fam :=
  constructor;
  [ apply shape_ok_fine; vm_compute; reflexivity
  | apply shape_ok_fine; vm_compute; reflexivity
  | reflexivity
  | repeat first [apply Forall2_nil | apply Forall2_cons]; intros blk H; list_len blk H; be_eval_bytes; be_col_simp; reflexivity
  | reflexivity
  | eexists; split; [reflexivity|]; split; [reflexivity|]; split;
    [ intros blk H; list_len blk H; be_eval_bytes; be_col_simp; reflexivity
    | intros cs H; split; [reflexivity|]; break_widths; be_eval_bytes; be_col_simp; reflexivity ]
  | repeat first [apply Forall2_nil | apply Forall2_cons]; intros blk H; list_len blk H; reflexivity
  | reflexivity ].

Lemma be_fam_bc1_std : FAM VNone sh_bc1_std_t sh_bc1_std_u 8 (be_bc1_fields VNone false) [4; 4]%nat.
Proof. be_fam. Qed.
Lemma be_fam_bc1_rec : forall v, FAM v sh_be_bc1_rec_t sh_be_bc1_rec_u 8 (be_bc1_fields v false) [4; 4]%nat.
Proof. intros v. be_fam. Qed.
Lemma be_fam_bc1_sc : FAM VNone sh_bc1_sc_t sh_bc1_sc_u 8 (be_bc1_fields VNone true) [2; 2; 4]%nat.
Proof. be_fam. Qed.
Lemma be_fam_bc1_scr : forall v, FAM v sh_be_bc1_scr_t sh_be_bc1_scr_u 8 (be_bc1_fields v true) [2; 2; 4]%nat.
Proof. intros v. be_fam. Qed.
Lemma be_fam_bc2_std : FAM VNone sh_bc2_std_t sh_bc2_std_u 16 (be_bc2_fields VNone false) [8; 4; 4]%nat.
Proof. be_fam. Qed.
Lemma be_fam_bc2_rec : forall v, FAM v sh_be_bc2_rec_t sh_be_bc2_rec_u 16 (be_bc2_fields v false) [8; 4; 4]%nat.
Proof. intros v. be_fam. Qed.
Lemma be_fam_bc2_sc : FAM VNone sh_bc2_sc_t sh_bc2_sc_u 16 (be_bc2_fields VNone true) [8; 2; 2; 4]%nat.
Proof. be_fam. Qed.
Lemma be_fam_bc2_scr : forall v, FAM v sh_be_bc2_scr_t sh_be_bc2_scr_u 16 (be_bc2_fields v true) [8; 2; 2; 4]%nat.
Proof. intros v. be_fam. Qed.
Lemma be_fam_bc3_std : FAM VNone sh_bc3_std_t sh_bc3_std_u 16 (be_bc3_fields VNone false false) [2; 6; 4; 4]%nat.
Proof. be_fam. Qed.
Lemma be_fam_bc3_rec : forall v, FAM v sh_be_bc3_rec_t sh_be_bc3_rec_u 16 (be_bc3_fields v false false) [2; 6; 4; 4]%nat.
Proof. intros v. be_fam. Qed.
Lemma be_fam_bc3_sc : FAM VNone sh_bc3_sc_t sh_bc3_sc_u 16 (be_bc3_fields VNone false true) [2; 6; 2; 2; 4]%nat.
Proof. be_fam. Qed.
Lemma be_fam_bc3_scr : forall v, FAM v sh_be_bc3_scr_t sh_be_bc3_scr_u 16 (be_bc3_fields v false true) [2; 6; 2; 2; 4]%nat.
Proof. intros v. be_fam. Qed.
Lemma be_fam_bc3_sa : FAM VNone sh_bc3_sa_t sh_bc3_sa_u 16 (be_bc3_fields VNone true false) [1; 1; 6; 4; 4]%nat.
Proof. be_fam. Qed.
Lemma be_fam_bc3_sar : forall v, FAM v sh_be_bc3_sar_t sh_be_bc3_sar_u 16 (be_bc3_fields v true false) [1; 1; 6; 4; 4]%nat.
Proof. intros v. be_fam. Qed.
Lemma be_fam_bc3_sac : FAM VNone sh_bc3_sac_t sh_bc3_sac_u 16 (be_bc3_fields VNone true true) [1; 1; 6; 2; 2; 4]%nat.
Proof. be_fam. Qed.
Lemma be_fam_bc3_sacr : forall v, FAM v sh_be_bc3_sacr_t sh_be_bc3_sacr_u 16 (be_bc3_fields v true true) [1; 1; 6; 2; 2; 4]%nat.
Proof. intros v. be_fam. Qed.
