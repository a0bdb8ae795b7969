(** The file type atom: C10 (see properties.jsonl). *)

From Coq Require Import List NArith ZArith Bool Lia Arith String.
From Coq Require Import ZifyBool ZifyNat ZifyN.
From Verif Require Import Base BaseLemmas Utf UtfLemmas Types Stream Parse Find Write TagSpec FileSpec ParseLemmas ReadProofs ReadFacts WriteBytes.
Import ListNotations.
Local Open Scope list_scope.

(** Any file type, whatever characters it has, is read back from the atom that is written for it. *)
Theorem C10_file_type : forall m s rest, wf_ustr s = true -> blen (enc8 s) + 8 < 2 ^ 32 -> blen (out (ftyp_write s) ++ rest) < 2 ^ 62 ->
  snd (ftyp_write s) = Ok tt /\ ftyp_parse m (out (ftyp_write s) ++ rest) 0 = Ok (s, blen (out (ftyp_write s))).
Proof.
  intros m s rest W L Lf. assert (Wr : writes (ftyp_write s) (render (Atom false (id4 "ftyp") (enc8 s) []))).
  { unfold ftyp_write. rewrite render_eq. unfold a_content. cbn [a_ext a_id a_pre a_kids]. change (render_all []) with (@nil byte). rewrite app_nil_r.
    rewrite (csize_eq _ (enc8 s)) by apply app_nil_r. apply writes_bind; [|apply writes_emit].
    exact (writes_head (Size false (blen (enc8 s) + 8)) FILETYPE). }
  destruct Wr as [E R]. split; [exact R|]. rewrite E in *.
  rewrite (ftyp_parses m (Atom false (id4 "ftyp") (enc8 s) []) s); [rewrite N.add_0_l; reflexivity| |reflexivity|exact W|apply app_nil_r|exact Lf|exists [], rest; split; reflexivity].
  change (a_content (Atom false (id4 "ftyp") (enc8 s) [])) with (enc8 s ++ []). unfold fits. cbn [a_ext a_kids forallb]. rewrite andb_true_r. apply N.ltb_lt. unfold a_content. cbn [a_pre a_kids]. change (render_all []) with (@nil byte). rewrite app_nil_r. exact L.
Qed.
Print Assumptions C10_file_type.

(** M, 4, an accented letter and a character that needs four bytes. *)
Example C10_file_type_example : let s := [77; 52; 233; 128512] in
  (out (ftyp_write s) = be 4 16 ++ fc_bytes (id4 "ftyp") ++ map n2b [77; 52; 195; 169; 240; 159; 152; 128]) /\
  (ftyp_parse Checked (out (ftyp_write s) ++ zeros 3) 0 = Ok (s, 16)).
Proof. split; vm_compute; reflexivity. Qed.
