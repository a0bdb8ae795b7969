(** Theorems about writing to an arbitrary file: C65 and C66 (see properties.jsonl). *)

From Coq Require Import List NArith ZArith Bool Lia Arith String.
From Coq Require Import ZifyBool ZifyNat ZifyN.
From Verif Require Import Base BaseLemmas Utf Types Stream Parse Find Write TagSpec FileSpec FailSpec WriteBytes PanicSpec WPanicSpec Display Described DescribedIs DescribedWrite ErrSpec LayoutSpec LayoutRun LayoutExact.
From Verif Require ErrExact ReadMore.
Import ListNotations.
Local Open Scope list_scope.

(** * C65: an error of writing names what is wrong with the file and where, and the list of what can be wrong is exact *)

Theorem C65_error_causes : forall cap fuel m items f e t, blen f < 2 ^ 62 -> nsum (map ad_len items) < 2 ^ 61 -> d_write cap fuel m items f = DErr e t ->
  wflaw f items \/ exists ns s, wcause f ns e s /\ t = says ns s.
Proof.
  intros cap fuel m items f e t Lf La E. destruct (write_is m f items Lf La cap fuel) as [F|H]; [now left|]. right. rewrite E in H. apply H.
Qed.
Print Assumptions C65_error_causes.

(** Writing with descriptions is writing: the descriptions are left out. *)
Theorem C65_described : forall cap fuel m items f, undress (d_write cap fuel m items f) = wr_res (write_tag cap fuel m items f).
Proof. exact described_is_write. Qed.
Print Assumptions C65_described.

(** If nothing makes the writer panic (C43), it fails if and only if the file has one of the causes. *)
Theorem C65_error_iff_cause : forall cap fuel m items f, ReadMore.big fuel -> blen f < 2 ^ 62 -> nsum (map ad_len items) < 2 ^ 61 -> ~ wflaw f items ->
  ((exists e t, d_write cap fuel m items f = DErr e t) <-> exists ns e s, wcause f ns e s).
Proof. exact error_iff_cause. Qed.
Print Assumptions C65_error_iff_cause.

(** Each cause happens.  The files: *)
Definition bx (id : string) (c : bytes) : bytes := be 4 (8 + blen c) ++ fc_bytes (id4 id) ++ c.
Definition ft : bytes := bx "ftyp" (fc_bytes (id4 "M4A ")).
Definition tab (id : string) (c : bytes) : bytes := bx "moov" (bx "trak" (bx "mdia" (bx "minf" (bx "stbl" (bx id c))))).
Definition md : bytes := bx "mdat" (be 2 7).
Definition cut (n : N) (f : bytes) : bytes := firstn (N.to_nat n) f.
Definition wrong : list (bytes * dres unit) :=
  [ (cut 3 ft, DErr EIoEof (txt "Error reading atom length"));
    (cut 6 ft, DErr EIoEof (txt "Error reading atom identifier"));
    (ft ++ be 4 1 ++ fc_bytes (id4 "mdat") ++ be 2 0, DErr EIoEof (txt "Error reading extended atom length"));
    (ft ++ bx "moov" (bx "udta" (be 4 7 ++ fc_bytes (id4 "meta"))), DErr EParsing (txt "Error parsing moov: Error parsing udta: Read length of 'meta' which is less than 8 bytes: 7"));
    (bx "moov" [], DErr ENoTag (txt "No filetype atom found."));
    (cut 10 ft, DErr EIoEof []);
    (bx "ftyp" [n2b 255], DErr EUtf8 (txt "Data is not valid utf-8."));
    (ft ++ bx "free" [], DErr (EAtomNotFound (id4 "moov")) (txt "Missing necessary data, no movie (moov) atom found"));
    (ft ++ be 4 1 ++ fc_bytes (id4 "mdat") ++ be 8 (2 ^ 63 - 1), DErr EIoSeek (txt "Error parsing mdat: "));
    (ft ++ be 4 1 ++ fc_bytes (id4 "free") ++ be 8 (2 ^ 63 - 1), DErr EIoSeek []);
    (ft ++ bx "moov" (bx "udta" (bx "meta" [])), DErr EIoEof (txt "Error parsing moov: Error parsing udta: Error parsing meta: Error reading version of full atom head"));
    (ft ++ bx "moov" (bx "udta" (bx "meta" [n2b 0])), DErr EIoEof (txt "Error parsing moov: Error parsing udta: Error parsing meta: Error reading flags of full atom head"));
    (ft ++ bx "moov" (bx "udta" (bx "meta" (n2b 2 :: be 3 0))), DErr (EUnknownVersion 2) (txt "Error parsing moov: Error parsing udta: Error parsing meta: Unknown metadata (meta) version"));
    (ft ++ tab "stco" (n2b 5 :: be 7 0) ++ md, DErr (EUnknownVersion 5) (txt "Error parsing stco: Unknown sample table chunk offset (stco) version"));
    (ft ++ tab "co64" (n2b 5 :: be 7 0) ++ md, DErr (EUnknownVersion 5) (txt "Error parsing co64: Unknown 64bit sample table chunk offset (co64) version"));
    (ft ++ tab "stco" (be 4 0 ++ be 4 2 ++ be 4 60) ++ md, DErr EParsing (txt "Error parsing stco: Sample table chunk offset (stco) offset table size doesn't match atom length"));
    (ft ++ tab "co64" (be 4 0 ++ be 4 1 ++ be 4 60) ++ md, DErr EParsing (txt "Error parsing co64: Sample table chunk offset 64 (co64) offset table size doesn't match atom length")) ].
Definition some : list atom_data := [AtomData (IFourcc TITLE) [DUtf8 [65; 66; 67]]].
Example C65_each_happens : map (fun x => d_write 8192 20 Checked some (fst x)) wrong = map snd wrong.
Proof. vm_compute. reflexivity. Qed.

(** * C66: the file after writing, byte by byte *)

(** Whatever the file is: if nothing makes the writer panic (C43) and nothing makes it fail (C65), the file is its old
    bytes with the new item list in the place of the old one, the sizes around it and the offsets in the tables
    adjusted, and nothing else changed. *)
Theorem C66_written_as : forall cap fuel m items f, ReadMore.big fuel -> blen f < 2 ^ 62 -> nsum (map ad_len items) < 2 ^ 61 -> ~ wflaw f items -> (forall ns e s, ~ wcause f ns e s) ->
  exists ns mo, layout f ns /\ (forall ns', layout f ns' -> ns' = ns) /\ movie ns = Some mo /\ wr_res (write_tag cap fuel m items f) = Ok tt /\
    (exact_items items -> items_fit items -> wr_file (write_tag cap fuel m items f) = rewritten f items ns mo).
Proof. exact written_as. Qed.
Print Assumptions C66_written_as.
(** An error leaves it as it was, or with some of the tables adjusted. *)
Theorem C66_failed_as : forall cap fuel m items f e, blen f < 2 ^ 62 -> nsum (map ad_len items) < 2 ^ 61 -> ~ wflaw f items -> exact_items items -> items_fit items ->
  wr_res (write_tag cap fuel m items f) = Err e -> wr_file (write_tag cap fuel m items f) = f \/ given_up f items (wr_file (write_tag cap fuel m items f)).
Proof. exact failed_as. Qed.
Print Assumptions C66_failed_as.

(** ** Examples *)

(** Boxes and flaws of a file, by computation. *)
Definition box_of (f : bytes) (q : N) : option (fourcc * N * N) :=
  match slice f (q + 4) 4 with
  | [a; b; c; d] =>
    if field f q 4 =? 1 then if q + 16 <=? blen f then Some (FourCC a b c d, 16, field f (q + 8) 8) else None
    else if (8 <=? field f q 4) && (q + 8 <=? blen f) then Some (FourCC a b c d, 8, field f q 4) else None
  | _ => None
  end.
Lemma box_of_is : forall f q id head size, box_at f q id head size <-> box_of f q = Some (id, head, size).
Proof.
  intros f q [a b c d] head size. unfold box_at, box_of, fc_bytes. cbn [fc0 fc1 fc2 fc3]. split.
  - intros (L & -> & [(E & -> & ->)|(N & G & -> & ->)]).
    + rewrite E. change (1 =? 1) with true. destruct (_ <=? _) eqn:X; [reflexivity|lia].
    + destruct (field f q 4 =? 1) eqn:X; [lia|]. destruct (8 <=? field f q 4) eqn:Y; [|lia]. destruct (q + 8 <=? blen f) eqn:Z; [reflexivity|lia].
  - destruct (slice f (q + 4) 4) as [|x0 [|x1 [|x2 [|x3 [|x4 r]]]]]; try discriminate. destruct (field f q 4 =? 1) eqn:X.
    + destruct (q + 16 <=? blen f) eqn:Z; [|discriminate]. intros E. injection E as -> -> -> -> <- <-. split; [lia|]. split; [reflexivity|]. left. split; [lia|auto].
    + destruct (8 <=? field f q 4) eqn:Y; [|discriminate]. destruct (q + 8 <=? blen f) eqn:Z; [|discriminate]. cbn [andb]. intros E. injection E as -> -> -> -> <- <-. split; [lia|]. split; [reflexivity|]. right. split; [lia|]. split; [lia|auto].
Qed.
Definition place_eq : forall x y : (within * N)%type, {x = y} + {x <> y}.
Proof. repeat decide equality. Defined.
Definition mem (x : (within * N)%type) (l : list (within * N)%type) : bool := if in_dec place_eq x l then true else false.
Lemma mem_in : forall x l, mem x l = true -> In x l. Proof. intros x l. unfold mem. destruct (in_dec place_eq x l); [auto|discriminate]. Qed.
(** The places where the writer looks for a box: a list that contains the first and what follows each. *)
Definition closed (f : bytes) (S : list (within * N)%type) : bool :=
  mem ([], 0) S &&
  forallb (fun x : (within * N)%type => let (w, q) := x in
             match box_of f q with
             | Some (id, head, size) => match scan_opens (lv w) id with None => mem (w, q + size) S | Some (l, d) => mem ((l, q + size) :: w, q + head + d) S end
             | None => true
             end && match w with (l, e) :: w' => if e <=? q then mem (w', q) S else true | [] => true end) S.
Lemma closed_all : forall f S, closed f S = true -> forall w q, scans f w q -> In (w, q) S.
Proof.
  intros f S C w q H. apply andb_true_iff in C. destruct C as [C0 C]. rewrite forallb_forall in C.
  induction H as [|w q id head size H IH B O|w q id head size l d H IH B O|l e w q H IH L]; [now apply mem_in| | |]; specialize (C _ IH); cbv beta iota in C; apply andb_true_iff in C; destruct C as [C1 C2].
  - apply box_of_is in B. rewrite B, O in C1. now apply mem_in.
  - apply box_of_is in B. rewrite B, O in C1. now apply mem_in.
  - destruct (e <=? q) eqn:X; [now apply mem_in|lia].
Qed.
Definition is_around (l : level) (id : fourcc) : bool :=
  match l with
  | Top => fourcc_eqb id (id4 "moov")
  | InMoov => fourcc_eqb id (id4 "udta")
  | InUdta => fourcc_eqb id (id4 "meta")
  | InMeta => fourcc_eqb id (id4 "ilst")
  | _ => false
  end.
Definition calm_box (f : bytes) (items : list atom_data) (x : (within * N)%type) : bool :=
  let (w, q) := x in
  match box_of f q with
  | Some (id, head, size) =>
    ((head =? 8) || (16 <=? size) && (size <? 2 ^ 63)) && (negb (is_around (lv w) id) || (q + size <=? blen f) && (size + room items <? 2 ^ 63)) &&
    (negb (fourcc_eqb id (id4 "co64")) || forallb (fun i => field f (q + head + 8 + 8 * N.of_nat i) 8 + room items <? 2 ^ 63) (seq 0 (N.to_nat (size / 8))))
  | None => true
  end.
Definition calm_item (a : atom_data) : bool :=
  forallb (fun d => 16 + data_len d mod 2 ^ 32 <? 2 ^ 32) (ad_data a) &&
  match ad_ident a with IFreeform mean name => (12 + blen (enc8 mean) mod 2 ^ 32 <? 2 ^ 32) && (12 + blen (enc8 name) mod 2 ^ 32 <? 2 ^ 32) | _ => true end.
Lemma calm_file : forall f items S, closed f S = true -> forallb (calm_box f items) S = true -> forallb calm_item items = true -> ~ wflaw f items.
Proof.
  intros f items S C B I. rewrite forallb_forall in B, I.
  assert (G : forall l q id head size, scanned f l q id head size ->
    (head = 8 \/ 16 <= size < 2 ^ 63) /\ (is_around l id = true -> q + size <= blen f /\ size + room items < 2 ^ 63) /\
    (id = id4 "co64" -> forall i, i < size / 8 -> field f (q + head + 8 + 8 * i) 8 + room items < 2 ^ 63)).
  { intros l q id head size (w & K & Lw & Bx). pose proof (B _ (closed_all f S C w q K)) as X. unfold calm_box in X. apply box_of_is in Bx. rewrite Bx, Lw in X.
    apply andb_true_iff in X. destruct X as [X X3]. apply andb_true_iff in X. destruct X as [X1 X2]. split; [lia|]. split.
    - intros A. rewrite A in X2. cbn [negb orb] in X2. lia.
    - intros -> i Li. assert (E : fourcc_eqb (id4 "co64") (id4 "co64") = true) by reflexivity. rewrite E in X3. cbn [negb orb] in X3. rewrite forallb_forall in X3.
      specialize (X3 (N.to_nat i)). rewrite in_seq in X3. rewrite N2Nat.id in X3. specialize (X3 ltac:(lia)). lia. }
  assert (A : forall l id, around_list l id \/ l = InMeta /\ id = id4 "ilst" -> is_around l id = true).
  { intros l id [[[-> ->]|[[-> ->]|[-> ->]]]|[-> ->]]; reflexivity. }
  intros F. destruct F as [l q id size K X|l q id head size K X L|l q id head size K X L|q head size i K L1 L2 X|a d Ia Id X|a mean name Ia E X].
  - destruct (G _ _ _ _ _ K) as [G1 _]. lia.
  - destruct (G _ _ _ _ _ K) as (_ & G2 & _). destruct (G2 (A _ _ X)). lia.
  - destruct (G _ _ _ _ _ K) as (_ & G2 & _). destruct (G2 (A _ _ (or_introl X))). lia.
  - destruct (G _ _ _ _ _ K) as (_ & _ & G3). specialize (G3 eq_refl i). assert (i + 1 <= size / 8) by (apply N.div_le_lower_bound; lia). lia.
  - specialize (I _ Ia). apply andb_true_iff in I. destruct I as [I _]. rewrite forallb_forall in I. specialize (I _ Id). lia.
  - specialize (I _ Ia). apply andb_true_iff in I. destruct I as [_ I]. rewrite E in I. lia.
Qed.
(** The boxes of a file. *)
Fixpoint see (fuel : nat) (f : bytes) (l : level) (k q : N) : option (list node * N) :=
  match fuel with
  | O => None
  | S n =>
    if k =? 0 then Some ([], q) else
    match box_of f q with
    | None => None
    | Some (id, head, size) =>
      match scan_opens l id with
      | None =>
        if q + size <? 2 ^ 63 then match see n f l (k - size) (q + size) with Some (ns, q') => Some (Node q head size id [] :: ns, q') | None => None end else None
      | Some (l', d) =>
        if (d =? 0) || (q + head + d <=? blen f) && (field f (q + head) 1 =? 0) then
          match see n f l' (size - head - d) (q + head + d) with
          | Some (inside, q1) => match see n f l (k - size) q1 with Some (ns, q') => Some (Node q head size id inside :: ns, q') | None => None end
          | None => None
          end
        else None
      end
    end
  end.
Lemma see_row : forall fuel f l k q ns q', see fuel f l k q = Some (ns, q') -> row f l k q ns q'.
Proof.
  induction fuel as [|n IH]; intros f l k q ns q' H; [discriminate|]. cbn [see] in H. destruct (k =? 0) eqn:K.
  { injection H as <- <-. assert (k = 0) as -> by lia. constructor. }
  destruct (box_of f q) as [[[id head] size]|] eqn:B; [|discriminate]. apply box_of_is in B. destruct (scan_opens l id) as [[l' d]|] eqn:O.
  - destruct (_ || _) eqn:V in H; [|discriminate]. destruct (see n f l' _ _) as [[inside q1]|] eqn:E1; [|discriminate]. destruct (see n f l (k - size) q1) as [[ns2 q2]|] eqn:E2; [|discriminate].
    injection H as <- <-. eapply Row_into; [lia|exact B|exact O| |apply IH, E1|apply IH, E2]. lia.
  - destruct (_ <? _) eqn:V in H; [|discriminate]. destruct (see n f l (k - size) (q + size)) as [[ns2 q2]|] eqn:E2; [|discriminate]. injection H as <- <-.
    eapply Row_past; [lia|exact B|exact O|lia|apply IH, E2].
Qed.

(** A file with two tracks, a table of each kind, an item list and media data behind them: *)
Definition track (id : string) (c : bytes) : bytes := bx "trak" (bx "mdia" (bx "minf" (bx "stbl" (bx "free" [] ++ bx id c)))).
Definition old_list : bytes := bx "ilst" (bx "aART" (bx "data" (be 4 1 ++ be 4 0 ++ map n2b [72; 105]))).
Definition sample : bytes :=
  ft ++ bx "moov" (track "stco" (be 4 0 ++ be 4 2 ++ be 4 350 ++ be 4 351) ++ track "co64" (be 4 0 ++ be 4 1 ++ be 8 351) ++
                   bx "udta" (bx "meta" (be 4 0 ++ bx "free" (be 3 0) ++ old_list))) ++ be 4 1 ++ fc_bytes (id4 "mdat") ++ be 8 18 ++ be 2 7.
Definition sample_nodes : list node := match see 12 sample Top (blen sample) 0 with Some (ns, _) => ns | None => [] end.
(** The places in it. *)
Definition after (f : bytes) (x : (within * N)%type) : list (within * N)%type :=
  let (w, q) := x in
  match box_of f q with
  | Some (id, head, size) => match scan_opens (lv w) id with None => [(w, q + size)] | Some (l, d) => [((l, q + size) :: w, q + head + d)] end
  | None => []
  end ++ match w with (l, e) :: w' => if e <=? q then [(w', q)] else [] | [] => [] end.
Fixpoint explore (n : nat) (f : bytes) (todo seen : list (within * N)%type) : list (within * N)%type :=
  match n, todo with
  | S n, x :: r => if mem x seen then explore n f r seen else explore n f (after f x ++ r) (x :: seen)
  | _, _ => seen
  end.
Definition places (f : bytes) : list (within * N)%type := explore 200 f [([], 0)] [].
Lemma sample_layout : layout sample sample_nodes.
Proof.
  split.
  - exists 8, 12. split; [apply box_of_is; vm_compute; reflexivity|]. split; [vm_compute; discriminate|]. exists [77; 52; 65; 32]. split; vm_compute; reflexivity.
  - exists (blen sample). apply (see_row 12). vm_compute. reflexivity.
Qed.
Lemma sample_calm : ~ wflaw sample some.
Proof. apply (calm_file _ _ (places sample)); vm_compute; reflexivity. Qed.
Lemma sample_no_cause : forall ns e s, ~ wcause sample ns e s.
Proof.
  assert (L1 : blen sample < 2 ^ 62) by (vm_compute; reflexivity). assert (L2 : nsum (map ad_len some) < 2 ^ 61) by (vm_compute; reflexivity).
  destruct (write_is Checked sample some L1 L2 8192 20) as [F|H]; [destruct (sample_calm F)|]. assert (E : d_write 8192 20 Checked some sample = DOk tt) by (vm_compute; reflexivity). rewrite E in H.
  destruct H as (ns & mo & H1 & H2 & H3 & _). exact (no_cause sample ns mo H1 H2 H3).
Qed.
(** It meets what is required, and it is written as the theorem says. *)
Example C66_example : ~ wflaw sample some /\ (forall ns e s, ~ wcause sample ns e s) /\ exact_items some /\ items_fit some /\ layout sample sample_nodes /\ adjusts sample_nodes = true /\
  List.length (tables_of sample_nodes) = 2%nat /\
  match movie sample_nodes with Some mo => wr_file (write_tag 8192 20 Checked some sample) = rewritten sample some sample_nodes mo /\ gain some mo = 34%Z | None => False end.
Proof.
  split; [exact sample_calm|]. split; [exact sample_no_cause|]. split; [repeat constructor|]. split; [reflexivity|]. split; [exact sample_layout|]. split; [vm_compute; reflexivity|]. split; [vm_compute; reflexivity|].
  vm_compute. split; reflexivity.
Qed.
(** And one where the second of two tables is not sound: the first has been adjusted. *)
Definition half : bytes := ft ++ bx "moov" (track "stco" (be 4 0 ++ be 4 1 ++ be 4 150) ++ track "stco" (be 4 0 ++ be 4 2 ++ be 4 151)) ++ bx "mdat" (be 2 7).
Definition half_nodes : list node := match see 12 half Top (blen half) 0 with Some (ns, _) => ns | None => [] end.
Example C66_failed_example : ~ wflaw half some /\ wr_res (write_tag 8192 20 Checked some half) = Err EParsing /\
  match movie half_nodes, tables_of half_nodes with
  | Some mo, [a; b] => wr_file (write_tag 8192 20 Checked some half) = retabled half (gain some mo) half a /\ wr_file (write_tag 8192 20 Checked some half) <> half
  | _, _ => False
  end.
Proof.
  split; [apply (calm_file _ _ (places half)); vm_compute; reflexivity|]. split; [vm_compute; reflexivity|]. vm_compute. split; [reflexivity|discriminate].
Qed.
