(** Block shapes on a big-endian machine: a colour is converted as the number a
    big-endian machine reads, so its two bytes change places before and after. *)
From Verif Require Import Base.Bytes Model.Color565 Model.Ycc Model.Kernel Proofs.KernelCheck Proofs.KernelLoop Proofs.Shapes.

Definition bcol (d : dir) (k : nat) (a : Z) : list sb :=
  [SYcc d true (SIn k (a + 1)) (SIn k a); SYcc d false (SIn k (a + 1)) (SIn k a)].

Definition sh_be_bc1_rec_t := Shape [8] [bcol Dec 0 0 ++ bcol Dec 0 2; byt 0 4 4].
Definition sh_be_bc1_rec_u := Shape [4; 4] [bcol Rec 0 0 ++ bcol Rec 0 2 ++ byt 1 0 4].
Definition sh_be_bc1_scr_t := Shape [8] [bcol Dec 0 0; bcol Dec 0 2; byt 0 4 4].
Definition sh_be_bc1_scr_u := Shape [2; 2; 4] [bcol Rec 0 0 ++ bcol Rec 1 0 ++ byt 2 0 4].
Definition sh_be_bc2_rec_t := Shape [16] [byt 0 0 8; bcol Dec 0 8 ++ bcol Dec 0 10; byt 0 12 4].
Definition sh_be_bc2_rec_u := Shape [8; 4; 4] [byt 0 0 8 ++ bcol Rec 1 0 ++ bcol Rec 1 2 ++ byt 2 0 4].
Definition sh_be_bc2_scr_t := Shape [16] [byt 0 0 8; bcol Dec 0 8; bcol Dec 0 10; byt 0 12 4].
Definition sh_be_bc2_scr_u := Shape [8; 2; 2; 4] [byt 0 0 8 ++ bcol Rec 1 0 ++ bcol Rec 2 0 ++ byt 3 0 4].
Definition sh_be_bc3_rec_t := Shape [16] [byt 0 0 2; byt 0 2 6; bcol Dec 0 8 ++ bcol Dec 0 10; byt 0 12 4].
Definition sh_be_bc3_rec_u := Shape [2; 6; 4; 4] [byt 0 0 2 ++ byt 1 0 6 ++ bcol Rec 2 0 ++ bcol Rec 2 2 ++ byt 3 0 4].
Definition sh_be_bc3_scr_t := Shape [16] [byt 0 0 2; byt 0 2 6; bcol Dec 0 8; bcol Dec 0 10; byt 0 12 4].
Definition sh_be_bc3_scr_u := Shape [2; 6; 2; 2; 4] [byt 0 0 2 ++ byt 1 0 6 ++ bcol Rec 2 0 ++ bcol Rec 3 0 ++ byt 4 0 4].
Definition sh_be_bc3_sar_t := Shape [16] [byt 0 0 1; byt 0 1 1; byt 0 2 6; bcol Dec 0 8 ++ bcol Dec 0 10; byt 0 12 4].
Definition sh_be_bc3_sar_u := Shape [1; 1; 6; 4; 4]
  [byt 0 0 1 ++ byt 1 0 1 ++ byt 2 0 6 ++ bcol Rec 3 0 ++ bcol Rec 3 2 ++ byt 4 0 4].
Definition sh_be_bc3_sacr_t := Shape [16] [byt 0 0 1; byt 0 1 1; byt 0 2 6; bcol Dec 0 8; bcol Dec 0 10; byt 0 12 4].
Definition sh_be_bc3_sacr_u := Shape [1; 1; 6; 2; 2; 4]
  [byt 0 0 1 ++ byt 1 0 1 ++ byt 2 0 6 ++ bcol Rec 3 0 ++ bcol Rec 4 0 ++ byt 5 0 4].
