#!/usr/bin/env python3
"""Write rocq/theories/Samples.v: the small files of /repo/files as Coq data.

With two arguments, write a file that checks another file of /repo/files instead:
    mksamples.py /repo/files/sample-64.mp4 /tmp/Check.v; coqc -Q /verif/rocq/theories Verif /tmp/Check.v
"""
import os, sys

def lines(path, name, comment, per=64):
    d = open(path, "rb").read()
    out = ["(** %s, %d bytes. *)" % (comment, len(d)), "Definition %s : bytes := unhex_all" % name]
    rows = ['"%s"' % d[i:i + per].hex() for i in range(0, len(d), per)]
    return "\n".join(out) + "\n  [" + ";\n   ".join(rows) + "]%string.\n"

here = os.path.dirname(os.path.abspath(__file__))
if len(sys.argv) == 3:
    with open(sys.argv[2], "w") as o:
        o.write("From Coq Require Import List NArith String.\nFrom Verif Require Import Base Utf Types Stream Parse Write TagSpec FileSpec EditSpec WriteExample Accept Samples Props_Samples.\n"
                "Import ListNotations.\nLocal Open Scope list_scope.\n")
        o.write(lines(sys.argv[1], "f", sys.argv[1], 1000))
        o.write("Goal sample_files_test f = true.\nProof. vm_compute. reflexivity. Qed.\n")
else:
    with open(os.path.join(here, "..", "rocq", "theories", "Samples.v"), "w") as o:
        o.write("""(** The small sample files of the crate (/repo/files) as data.  Generated by tools/mksamples.py. *)

From Coq Require Import List NArith String Ascii.
From Verif Require Import Base.
Import ListNotations.
Local Open Scope list_scope.

Definition hex_digit (c : ascii) : N := let n := N_of_ascii c in if n <? 58 then n - 48 else n - 87.
Fixpoint unhex (s : string) : bytes :=
  match s with
  | String a (String b r) => n2b (hex_digit a * 16 + hex_digit b) :: unhex r
  | _ => []
  end.
Definition unhex_all (l : list string) : bytes := flat_map unhex l.

""")
        o.write(lines("/repo/files/artwork.png", "artwork_png", "files/artwork.png") + "\n")
        o.write(lines("/repo/files/sample.m4a", "sample_m4a", "files/sample.m4a") + "\n")
        o.write(lines("/repo/files/sample-multi-data.m4a", "sample_multi_data_m4a", "files/sample-multi-data.m4a"))
