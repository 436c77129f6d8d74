(** Block shapes: which bytes of a block each section holds. *)
From Verif Require Import Base.Bytes Model.Color565 Model.Ycc Model.Kernel Proofs.KernelCheck Proofs.KernelLoop.

(** bytes [a .. a+n) of input [k] *)
Definition byt (k : nat) (a n : Z) : list sb := map (SIn k) (zseq a (Z.to_nat n)).
(** a colour at byte [a] of input [k], converted *)
Definition col (d : dir) (k : nat) (a : Z) : list sb :=
  [SYcc d false (SIn k a) (SIn k (a + 1)); SYcc d true (SIn k a) (SIn k (a + 1))].

(** ** BC1: colour 0, colour 1, indices *)
Definition sh_bc1_std_t := Shape [8] [byt 0 0 4; byt 0 4 4].
Definition sh_bc1_std_u := Shape [4; 4] [byt 0 0 4 ++ byt 1 0 4].
Definition sh_bc1_rec_t := Shape [8] [col Dec 0 0 ++ col Dec 0 2; byt 0 4 4].
Definition sh_bc1_rec_u := Shape [4; 4] [col Rec 0 0 ++ col Rec 0 2 ++ byt 1 0 4].
Definition sh_bc1_sc_t := Shape [8] [byt 0 0 2; byt 0 2 2; byt 0 4 4].
Definition sh_bc1_sc_u := Shape [2; 2; 4] [byt 0 0 2 ++ byt 1 0 2 ++ byt 2 0 4].
Definition sh_bc1_scr_t := Shape [8] [col Dec 0 0; col Dec 0 2; byt 0 4 4].
Definition sh_bc1_scr_u := Shape [2; 2; 4] [col Rec 0 0 ++ col Rec 1 0 ++ byt 2 0 4].

(** ** BC2: alpha, colour 0, colour 1, indices *)
Definition sh_bc2_std_t := Shape [16] [byt 0 0 8; byt 0 8 4; byt 0 12 4].
Definition sh_bc2_std_u := Shape [8; 4; 4] [byt 0 0 8 ++ byt 1 0 4 ++ byt 2 0 4].
Definition sh_bc2_rec_t := Shape [16] [byt 0 0 8; col Dec 0 8 ++ col Dec 0 10; byt 0 12 4].
Definition sh_bc2_rec_u := Shape [8; 4; 4] [byt 0 0 8 ++ col Rec 1 0 ++ col Rec 1 2 ++ byt 2 0 4].
Definition sh_bc2_sc_t := Shape [16] [byt 0 0 8; byt 0 8 2; byt 0 10 2; byt 0 12 4].
Definition sh_bc2_sc_u := Shape [8; 2; 2; 4] [byt 0 0 8 ++ byt 1 0 2 ++ byt 2 0 2 ++ byt 3 0 4].
Definition sh_bc2_scr_t := Shape [16] [byt 0 0 8; col Dec 0 8; col Dec 0 10; byt 0 12 4].
Definition sh_bc2_scr_u := Shape [8; 2; 2; 4] [byt 0 0 8 ++ col Rec 1 0 ++ col Rec 2 0 ++ byt 3 0 4].

(** ** BC3: alpha 0, alpha 1, alpha indices, colour 0, colour 1, colour indices *)
Definition sh_bc3_std_t := Shape [16] [byt 0 0 2; byt 0 2 6; byt 0 8 4; byt 0 12 4].
Definition sh_bc3_std_u := Shape [2; 6; 4; 4] [byt 0 0 2 ++ byt 1 0 6 ++ byt 2 0 4 ++ byt 3 0 4].
Definition sh_bc3_rec_t := Shape [16] [byt 0 0 2; byt 0 2 6; col Dec 0 8 ++ col Dec 0 10; byt 0 12 4].
Definition sh_bc3_rec_u := Shape [2; 6; 4; 4] [byt 0 0 2 ++ byt 1 0 6 ++ col Rec 2 0 ++ col Rec 2 2 ++ byt 3 0 4].
Definition sh_bc3_sc_t := Shape [16] [byt 0 0 2; byt 0 2 6; byt 0 8 2; byt 0 10 2; byt 0 12 4].
Definition sh_bc3_sc_u := Shape [2; 6; 2; 2; 4] [byt 0 0 2 ++ byt 1 0 6 ++ byt 2 0 2 ++ byt 3 0 2 ++ byt 4 0 4].
Definition sh_bc3_scr_t := Shape [16] [byt 0 0 2; byt 0 2 6; col Dec 0 8; col Dec 0 10; byt 0 12 4].
Definition sh_bc3_scr_u := Shape [2; 6; 2; 2; 4] [byt 0 0 2 ++ byt 1 0 6 ++ col Rec 2 0 ++ col Rec 3 0 ++ byt 4 0 4].
Definition sh_bc3_sa_t := Shape [16] [byt 0 0 1; byt 0 1 1; byt 0 2 6; byt 0 8 4; byt 0 12 4].
Definition sh_bc3_sa_u := Shape [1; 1; 6; 4; 4] [byt 0 0 1 ++ byt 1 0 1 ++ byt 2 0 6 ++ byt 3 0 4 ++ byt 4 0 4].
Definition sh_bc3_sar_t := Shape [16] [byt 0 0 1; byt 0 1 1; byt 0 2 6; col Dec 0 8 ++ col Dec 0 10; byt 0 12 4].
Definition sh_bc3_sar_u := Shape [1; 1; 6; 4; 4]
  [byt 0 0 1 ++ byt 1 0 1 ++ byt 2 0 6 ++ col Rec 3 0 ++ col Rec 3 2 ++ byt 4 0 4].
Definition sh_bc3_sac_t := Shape [16] [byt 0 0 1; byt 0 1 1; byt 0 2 6; byt 0 8 2; byt 0 10 2; byt 0 12 4].
Definition sh_bc3_sac_u := Shape [1; 1; 6; 2; 2; 4]
  [byt 0 0 1 ++ byt 1 0 1 ++ byt 2 0 6 ++ byt 3 0 2 ++ byt 4 0 2 ++ byt 5 0 4].
Definition sh_bc3_sacr_t := Shape [16] [byt 0 0 1; byt 0 1 1; byt 0 2 6; col Dec 0 8; col Dec 0 10; byt 0 12 4].
Definition sh_bc3_sacr_u := Shape [1; 1; 6; 2; 2; 4]
  [byt 0 0 1 ++ byt 1 0 1 ++ byt 2 0 6 ++ col Rec 3 0 ++ col Rec 4 0 ++ byt 5 0 4].

(** ** Colour endpoint pairs split into two arrays *)
Definition sh_split := Shape [4] [byt 0 0 2; byt 0 2 2].
