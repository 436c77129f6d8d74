# writes rocq/theories/Proofs/BeAnyFile.v from Proofs/AnyFile.v; run in rocq/theories
import re
s=open('Proofs/AnyFile.v').read()
a=s[s.index("(** What the dispatcher answers"):s.index("(** The header word a transform writes asks")]
b=s[s.index("Lemma header_damage"):s.index("(** Single bits. *)")]
t=a+b
for w in ["dispatch_untransform","core_untransform_ptr","core_untransform_ok","dds_untransform","dds_transform_bundle","transform_success","texture_layout","layout_len","layout_inj","undispatch_exact","any_file","header_damage","reserved_bits","untransform_pieces","remade","recovered","job_layout"]:
    t=re.sub(r'(?<![A-Za-z_0-9])'+w+r'(?![A-Za-z_0-9])','be_'+w,t)
t=t.replace("supported c","cpu_ok c")
# debug conditions dropped
t=t.replace("cpu_ok c -> (c_debug c = true -> y <> []) ->","cpu_ok c ->").replace("intros c w y out K HD Ho.","intros c w y out K Ho.").replace("k c s y out K HD ltac","k c s y out K ltac")
t=t.replace("= Ok (Some i) -> (c_debug c = true -> 0 < i_data_length i) ->","= Ok (Some i) ->").replace("intros c v z out i K P HD off","intros c v z out i K P off").replace("fold n in Hn, HD.","fold n in Hn.")
t=t.replace("  assert (TN : c_debug c = true -> T <> []) by (intros D Q; rewrite Q, zlen_nil in LT; specialize (HD D); lia).\n","").replace("specialize (X TN ltac:(lia))","specialize (X ltac:(lia))")
t=t.replace("  (c_debug c1 = true \\/ c_debug c2 = true -> 0 < i_data_length i) -> (c_debug c2","  (c_debug c2")
t=t.replace("K1 K2 P HD HF HU1 E Lh HU2 Lo off n z.","K1 K2 P HF HU1 E Lh HU2 Lo off n z.").replace("K1 P ltac:(auto) HU1 E","K1 P HU1 E").replace("Hn, Ho, Hx, HD.","Hn, Ho, Hx.").replace("be_any_file c2 v2 z out2 i K2 PZ ltac:(auto)","be_any_file c2 v2 z out2 i K2 PZ")
t=t.replace("K1 K2 P HD HF HU1 E Lh HU2 Lo B.","K1 K2 P HF HU1 E Lh HU2 Lo B.").replace("K1 K2 P HD HF HU1 E Lh HU2 Lo)","K1 K2 P HF HU1 E Lh HU2 Lo)").replace("K1 K2 P ltac:(auto) HF","K1 K2 P HF")
# recovered on big endian machines
t=t.replace("X c3 c4 o1 o2, cpu_ok c3 -> cpu_ok c4 ->","X d3 d4 j3 j4 o1 o2,").replace("Little c3","Big d3 j3").replace("Little c4","Big d4 j4")
t=t.replace("X c3 c4 o1 o2 K3 K4 NE","X d3 d4 j3 j4 o1 o2 NE").replace("(split; [assumption|]); cbn [k_job","(split; [exact Logic.I|]); cbn [k_job")
t=t.replace("lay_of false (job_of","lay_of true (job_of").replace("Lemma job_block : forall k s, block (job_of k s) = codec_block k.\nProof. intros [] s; reflexivity. Qed.\n","")
t=t.replace("forall (c3 c4 : cfg) (o1 o2 : list byte), cpu_ok c3 -> cpu_ok c4 ->","forall (d3 d4 : bool) (j3 j4 : byte) (o1 o2 : list byte),").replace("U Q Q0 c3 c4 o1 o2 K3 K4 L1","U Q Q0 d3 d4 j3 j4 o1 o2 L1")
hdr='''(** Proofs/AnyFile.v for a big-endian machine (generated by tools/gen_be_any_file.py). *)
From Verif Require Import Base.Bytes Base.Res Model.Color565 Model.Kernel Model.Transform Model.Auto Model.Builders Model.Embed Model.Bundle Model.Dds Model.Calls
  Model.BigEndian Model.BeTransform Model.BeFiles.
From Verif Require Import Spec.Layout Spec.BigEndian Spec.Estimator Spec.Header Spec.HeaderWord Spec.Files Spec.BeFiles Spec.Dds Spec.Calls Spec.AnyFile Proofs.SliceFacts Proofs.AutoTheorems Proofs.EmbedFacts
  Proofs.BundleFacts Proofs.BeBundleFacts Proofs.DdsFacts Proofs.DdsHandler Proofs.BeDdsHandler Proofs.DdsRestore Proofs.BeDdsRestore Proofs.DamageDds Proofs.BeDamage Proofs.LayoutFacts Proofs.Calls Proofs.AnyFile.
From Coq Require Import ZifyBool.

'''
open('Proofs/BeAnyFile.v','w').write(hdr+t.rstrip()+"\n")
