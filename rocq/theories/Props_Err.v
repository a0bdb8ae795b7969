(** Theorems about the errors of reading and their descriptions: C63 (see properties.jsonl). *)

From Coq Require Import List NArith ZArith Bool Lia String.
From Coq Require Import ZifyBool ZifyNat ZifyN.
From Verif Require Import Base BaseLemmas Types Stream Parse TagSpec FileSpec FailSpec PanicSpec Display Described DescribedIs ErrSpec ErrProofs.
Import ListNotations.
Local Open Scope list_scope.

(** * C63: an error of reading names what is wrong with the file and where *)

(** Whatever error reading ends with and whatever it says, the file has the cause at a place the reader visits, and
    the description is the names of the boxes around it and what is wrong there; or the file has one of the flaws that
    make the reader panic in the checked profile (C13). *)
Theorem C63_error_causes : forall fuel m f e t, blen f < 2 ^ 62 -> d_read fuel m f = DErr e t ->
  flaw f \/ exists ns s, cause f ns e s /\ t = says ns s.
Proof.
  intros fuel m f e t L E. destruct (dread m f L fuel) as [F|F]; [now left|]. right. unfold d_read in E.
  destruct (d_read_from fuel m f 0) as [[a q]|e' t'|x|]; try discriminate. injection E as <- <-. exact F.
Qed.
Print Assumptions C63_error_causes.

(** Reading with descriptions is reading: the descriptions are left out. *)
Theorem C63_described : forall fuel m f, undress (d_read fuel m f) = read_tag fuel m f.
Proof. exact described_is_read. Qed.
Print Assumptions C63_described.

(** So a file that is not read has a cause in the list: without one, and without flaw, reading ends with a tag (or goes
    on, which C14 excludes). *)
Theorem C63_no_cause : forall fuel m f, blen f < 2 ^ 62 -> ~ flaw f -> (forall ns e s, ~ cause f ns e s) -> (exists t, read_tag fuel m f = Ok t) \/ read_tag fuel m f = Fuel.
Proof.
  intros fuel m f L NF NC. rewrite <- described_is_read. pose proof (dread m f L fuel) as [F|F]; [contradiction|]. pose proof (PanicProofs.post_read_tag m f L fuel) as [G|G]; [contradiction|].
  pose proof (described_is_read fuel m f) as S. unfold read_tag in S. unfold d_read in *.
  destruct (d_read_from fuel m f 0) as [[t q]|e t|x|] eqn:E.
  - left. exists t. reflexivity.
  - destruct F as (ns & s & C & _). exfalso. exact (NC _ _ _ C).
  - cbn in S. destruct (read_tag_from fuel m f 0) as [[? ?]|?|?|]; try discriminate. contradiction.
  - right. reflexivity.
Qed.
Print Assumptions C63_no_cause.

(** Each cause happens.  The files: *)
Definition bx (id : string) (c : bytes) : bytes := be 4 (8 + blen c) ++ fc_bytes (id4 id) ++ c.
Definition ft : bytes := bx "ftyp" (fc_bytes (id4 "M4A ")).
Definition items (c : bytes) : bytes := bx "moov" (bx "udta" (bx "meta" (be 4 0 ++ bx "ilst" c))).
Definition item (c : bytes) : bytes := items (bx "aART" c).
Definition stsd (c : bytes) : bytes := bx "moov" (bx "trak" (bx "mdia" (bx "minf" (bx "stbl" (bx "stsd" c))))).
Definition entry (c : bytes) : bytes := stsd (be 8 1 ++ bx "mp4a" (be 28 0 ++ c)).
Definition value (kind : N) (c : bytes) : bytes := bx "data" (be 4 kind ++ be 4 0 ++ c).
(** The first [n] bytes. *)
Definition cut (n : N) (f : bytes) : bytes := firstn (N.to_nat n) f.
Definition wrong : list (bytes * dres tag) :=
  [ (cut 3 ft, DErr EIoEof (txt "Error reading atom length"));
    (cut 6 ft, DErr EIoEof (txt "Error reading atom identifier"));
    (ft ++ be 4 1 ++ fc_bytes (id4 "mdat") ++ be 2 0, DErr EIoEof (txt "Error reading extended atom length"));
    (ft ++ bx "moov" (bx "udta" (be 4 7 ++ fc_bytes (id4 "meta"))), DErr EParsing (txt "Error parsing moov: Error parsing udta: Read length of 'meta' which is less than 8 bytes: 7"));
    (bx "moov" [], DErr ENoTag (txt "No filetype atom found."));
    (cut 10 ft, DErr EIoEof []);
    (bx "ftyp" [n2b 255], DErr EUtf8 (txt "Data is not valid utf-8."));
    (ft ++ bx "free" [], DErr (EAtomNotFound (id4 "moov")) (txt "Missing necessary data, no movie (moov) atom found"));
    (ft ++ be 4 1 ++ fc_bytes (id4 "mdat") ++ be 8 (2 ^ 63 - 1), DErr EIoSeek []);
    (ft ++ bx "moov" (bx "udta" (bx "meta" [])), DErr EIoEof (txt "Error parsing moov: Error parsing udta: Error parsing meta: Error reading version of full atom head"));
    (ft ++ bx "moov" (bx "udta" (bx "meta" [n2b 0])), DErr EIoEof (txt "Error parsing moov: Error parsing udta: Error parsing meta: Error reading flags of full atom head"));
    (ft ++ item (bx "data" (n2b 9 :: be 7 0)), DErr (EUnknownVersion 9) (txt "Error parsing moov: Error parsing udta: Error parsing meta: Error parsing ilst: Error reading data atom (data)"));
    (ft ++ bx "moov" (bx "udta" (bx "meta" (n2b 2 :: be 3 0))), DErr (EUnknownVersion 2) (txt "Error parsing moov: Error parsing udta: Error parsing meta: Unknown metadata (meta) version"));
    (ft ++ stsd (n2b 3 :: be 7 0), DErr (EUnknownVersion 3) (txt "Error parsing moov: Error parsing trak: Error parsing mdia: Error parsing minf: Error parsing stbl: Error parsing stsd: Unknown sample table sample description (stsd) version"));
    (ft ++ entry (bx "esds" (n2b 4 :: be 3 0)), DErr (EUnknownVersion 4) (txt "Error parsing moov: Error parsing trak: Error parsing mdia: Error parsing minf: Error parsing stbl: Error parsing stsd: Error parsing mp4a: Unknown MPEG-4 audio (mp4a) version"));
    (ft ++ bx "moov" (bx "mvhd" (n2b 2 :: be 31 0)), DErr (EUnknownVersion 2) (txt "Error parsing moov: Error parsing mvhd: Error unknown movie header (mvhd) version 2"));
    (ft ++ bx "moov" (bx "mvhd" (be 4 0 ++ be 15 0)), DErr EIoEof (txt "Error parsing moov: Error parsing mvhd: "));
    (ft ++ item (value 3 []), DErr (EUnknownDataType 3) (txt "Error parsing moov: Error parsing udta: Error parsing meta: Error parsing ilst: Unknown datatype code"));
    (cut 75 (ft ++ item (value 1 (be 8 0))), DErr EIoEof (txt "Error parsing moov: Error parsing udta: Error parsing meta: Error parsing ilst: "));
    (ft ++ item (value 1 [n2b 255]), DErr EUtf8 (txt "Error parsing moov: Error parsing udta: Error parsing meta: Error parsing ilst: Data is not valid utf-8."));
    (ft ++ item (value 2 [n2b 220; n2b 0]), DErr EUtf16 (txt "Error parsing moov: Error parsing udta: Error parsing meta: Error parsing ilst: Data is not valid utf-16."));
    (ft ++ item (bx "name" (be 4 0 ++ [n2b 255]) ++ value 1 []), DErr EUtf8 (txt "Error parsing moov: Error parsing udta: Error parsing meta: Error parsing ilst: Data is not valid utf-8."));
    (ft ++ item (bx "mean" (be 4 0)), DErr (EAtomNotFound (id4 "data")) (txt "Error parsing moov: Error parsing udta: Error parsing meta: Error parsing ilst: Error constructing atom data 'aART', missing data atom"));
    (ft ++ entry (bx "free" []), DErr (EAtomNotFound (id4 "esds")) (txt "Error parsing moov: Error parsing trak: Error parsing mdia: Error parsing minf: Error parsing stbl: Error parsing stsd: Error parsing mp4a: Missing esds atom"));
    (ft ++ entry (bx "esds" (be 4 0 ++ [n2b 4; n2b 0])), DErr (EDescriptorNotFound 3) (txt "Error parsing moov: Error parsing trak: Error parsing mdia: Error parsing minf: Error parsing stbl: Error parsing stsd: Error parsing mp4a: Missing elementary stream descriptor"));
    (ft ++ entry (bx "esds" (be 4 0)), DErr EIoEof (txt "Error parsing moov: Error parsing trak: Error parsing mdia: Error parsing minf: Error parsing stbl: Error parsing stsd: Error parsing mp4a: "));
    (ft ++ entry (bx "esds" (be 4 0 ++ [n2b 3; n2b 5] ++ be 3 0 ++ [n2b 6; n2b 128])), DErr EIoEof (txt "Error parsing moov: Error parsing trak: Error parsing mdia: Error parsing minf: Error parsing stbl: Error parsing stsd: Error parsing mp4a: "));
    (ft ++ entry (bx "esds" (be 4 0 ++ [n2b 3; n2b 5] ++ be 3 0 ++ [n2b 4; n2b 13])), DErr EIoEof (txt "Error parsing moov: Error parsing trak: Error parsing mdia: Error parsing minf: Error parsing stbl: Error parsing stsd: Error parsing mp4a: "));
    (ft ++ entry (bx "esds" (be 4 0 ++ [n2b 3; n2b 20] ++ be 3 0 ++ [n2b 4; n2b 15] ++ be 13 0 ++ [n2b 5; n2b 2])), DErr EIoEof (txt "Error parsing moov: Error parsing trak: Error parsing mdia: Error parsing minf: Error parsing stbl: Error parsing stsd: Error parsing mp4a: ")) ].
Example C63_each_happens : map (fun x => d_read 20 Checked (fst x)) wrong = map snd wrong.
Proof. vm_compute. reflexivity. Qed.
