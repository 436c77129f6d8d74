(** A big-endian machine.

    The registers of Model/Kernel.v hold the bytes of a value with the least
    significant first, and a load puts the bytes of memory there in order: that is
    a little-endian machine. On a big-endian machine the byte at the lowest
    address is the most significant, so a load of a u16, u32 or u64 fills the
    register with the bytes of memory in reverse order, and a store writes them
    back in reverse order. Nothing else changes: shifts, truncations and
    arithmetic are on values. [be_body] rewrites the body of a loop that way, and
    the rewritten body runs on the machine of Model/Kernel.v.

    Only the scalar code is compiled for a big-endian machine (the SIMD and
    assembly kernels are behind cfg(target_arch = "x86"/"x86_64")), so every load
    and store is of one integer of 1, 2, 4 or 8 bytes. *)
From Verif Require Import Base.Bytes Base.Res Model.Color565 Model.Ycc Model.Kernel Model.ColorBatch.
Open Scope string_scope.
Open Scope list_scope.
Open Scope Z_scope.

(** [d := the n bytes of s in reverse order], using register "be byte".
    src/core/dxt-lossless-transform-bc1/src/transform/standard/transform/portable32.rs:34 (an integer read or written on a big-endian machine) *)
Definition be_reverse (d s : string) (n : Z) : list instr :=
  IOp "be result" (OBytes (n - 1) 1) [s] ::
  flat_map (fun i => [IOp "be byte" (OBytes (n - 2 - i) 1) [s];
                      IOp "be result" OConcat ["be result"; "be byte"]])
           (zseq 0 (Z.to_nat (n - 1)))
  ++ [IOp d OMov ["be result"]].

Definition be_instr (i : instr) : list instr :=
  match i with
  | ILoad d p off n => ILoad d p off n :: be_reverse d d n
  | IStore p off n s => be_reverse "be store" s n ++ [IStore p off n "be store"]
  | _ => [i]
  end.
Definition be_body (l : list instr) : list instr := flat_map be_instr l.

(** A big-endian machine: not an x86, so it has none of the instruction sets that
    the code asks about. [debug] is the build profile, [junk] the value of
    undefined bytes.
    src/core/dxt-lossless-transform-common/src/cpu_detect.rs *)
Definition big_endian_cpu (debug : bool) (junk : byte) : cfg :=
  Cfg debug OtherArch false false false false false false false false junk.

(** src/core/dxt-lossless-transform-common/src/color_565/decorrelate_batch_split_ptr.rs:324-358
    on a big-endian machine, see Model/ColorBatch.v *)
Definition be_color_batch_recorrelate_ptr_split (c : cfg) (src_ptr_0 src_ptr_1 dst_ptr : ptr) (num_items : Z)
  (v : variant) (m : mem) : res mem :=
  do _ <- debug_assert (c_debug c) (num_items mod 2 =? 0) "num_items must be even for split operations" ;;
  do e <- ptr_add m src_ptr_0 (num_items / 2 * 2) ;;
  let body := be_body match v with VNone => color_batch_copy_split_body | _ => color_batch_recorr_split_body end in
  do s <- while_lt (c_junk c) (vnum v) body "src_ptr_0" e
            (St [] [("src_ptr_0", src_ptr_0); ("src_ptr_1", src_ptr_1); ("dst_ptr", dst_ptr)] m) ;;
  Ok (mm s).
