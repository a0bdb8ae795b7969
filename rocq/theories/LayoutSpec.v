(** Specification of the boxes of an arbitrary file as the writer finds them, and of the errors of writing: for each
    error the flaws of the file that it reports, with the description it gives. *)

From Coq Require Import List NArith ZArith Bool String.
From Verif Require Import Base Types Utf TagSpec FileSpec FailSpec PanicSpec WPanicSpec Display ErrSpec.
Import ListNotations.
Local Open Scope list_scope.

(** * Places *)

(** As for reading ([sees]), but with the boxes the writer goes into, and the boxes behind the movie box are visited, too. *)
Inductive visits (f : bytes) : standing -> N -> Prop :=
| Visits_start : visits f [(Top, blen f)] 0
| Visits_past : forall l k w q id head size, visits f ((l, k) :: w) q -> 0 < k -> box_at f q id head size -> scan_opens l id = None ->
    visits f ((l, k - size) :: w) (q + size)
| Visits_into : forall l k w q id head size l' d, visits f ((l, k) :: w) q -> 0 < k -> box_at f q id head size -> scan_opens l id = Some (l', d) ->
    visits f ((l', size - head - d) :: (l, k - size) :: w) (q + head + d)
| Visits_out : forall l l' k w q, visits f ((l, 0) :: (l', k) :: w) q -> visits f ((l', k) :: w) q.
(** A box called [id] at a place that is visited. *)
Definition visited (f : bytes) (w : standing) (q : N) (id : fourcc) (head size : N) : Prop :=
  exists l k w', w = (l, k) :: w' /\ visits f w q /\ 0 < k /\ box_at f q id head size.
(** A place where the head of a box is expected, and the names of the boxes around it. *)
Definition head_spot (f : bytes) (ns : list fourcc) (q : N) : Prop :=
  exists l k w, visits f ((l, k) :: w) q /\ (q = 0 \/ 0 < k) /\ ns = trail ((l, k) :: w).
(** Boxes that are not gone into but named. *)
Definition noted (l : level) (id : fourcc) : list fourcc :=
  let one (s : string) := if fourcc_eqb id (id4 s) then [id] else [] in
  match l with
  | Top => one "mdat"%string
  | InStbl => one "stco"%string ++ one "co64"%string
  | InMeta => one "hdlr"%string ++ one "ilst"%string
  | _ => []
  end.

(** * The boxes of a file *)

(** A box: where it is, the sizes of its head and of all of it, its name, and the boxes in it if it is gone into. *)
Inductive node := Node (q head size : N) (id : fourcc) (inside : list node).
Definition n_at (n : node) : N := let 'Node q _ _ _ _ := n in q.
Definition n_head (n : node) : N := let 'Node _ h _ _ _ := n in h.
Definition n_size (n : node) : N := let 'Node _ _ s _ _ := n in s.
Definition n_id (n : node) : fourcc := let 'Node _ _ _ i _ := n in i.
Definition n_inside (n : node) : list node := let 'Node _ _ _ _ l := n in l.

(** The boxes that fill [k] bytes of a container of kind [l], by the sizes they announce, from [q] on.  They end at [q'],
    which can be behind the end of the container: what follows a box is expected where the boxes in it ended. *)
Inductive row (f : bytes) : level -> N -> N -> list node -> N -> Prop :=
| Row_end : forall l q, row f l 0 q [] q
| Row_past : forall l k q id head size ns q', 0 < k -> box_at f q id head size -> scan_opens l id = None -> q + size < 2 ^ 63 ->
    row f l (k - size) (q + size) ns q' -> row f l k q (Node q head size id [] :: ns) q'
| Row_into : forall l k q id head size l' d inside q1 ns q', 0 < k -> box_at f q id head size -> scan_opens l id = Some (l', d) ->
    d = 0 \/ q + head + d <= blen f /\ field f (q + head) 1 = 0 ->
    row f l' (size - head - d) (q + head + d) inside q1 -> row f l (k - size) q1 ns q' -> row f l k q (Node q head size id inside :: ns) q'.
(** The file consists of these boxes, the first of which is a file type. *)
Definition layout (f : bytes) (ns : list node) : Prop :=
  (exists head size, box_at f 0 (id4 "ftyp") head size /\ size <= blen f /\ is_utf8 (slice f head (size - head))) /\ exists q', row f Top (blen f) 0 ns q'.

(** Of several boxes of a name the last counts. *)
Definition named (id : fourcc) (n : node) : bool := fourcc_eqb (n_id n) id.
Definition final (id : fourcc) (ns : list node) : option node := fold_left (fun o n => if named id n then Some n else o) ns None.
Definition within_it (o : option node) : list node := match o with Some n => n_inside n | None => [] end.
Definition movie (ns : list node) : option node := final (id4 "moov") ns.
(** The chunk offset tables of a track; [true] for 64-bit offsets. *)
Definition track_tables (t : node) : list (bool * node) :=
  let stbl := within_it (final (id4 "stbl") (within_it (final (id4 "minf") (within_it (final (id4 "mdia") (n_inside t)))))) in
  match final (id4 "stco") stbl with Some n => [(false, n)] | None => [] end ++ match final (id4 "co64") stbl with Some n => [(true, n)] | None => [] end.
Definition tables_of (ns : list node) : list (bool * node) := flat_map track_tables (filter (named (id4 "trak")) (within_it (movie ns))).
(** The tables are adjusted if there is media data behind the movie. *)
Definition adjusts (ns : list node) : bool :=
  match movie ns, final (id4 "mdat") ns with Some mo, Some md => n_at mo <? n_at md | _, _ => false end.

(** * Errors *)

(** A table that is read: its place, the size of its content. *)
Definition table_spot (f : bytes) (wide : bool) (p c : N) : Prop :=
  exists ns n, layout f ns /\ adjusts ns = true /\ In (wide, n) (tables_of ns) /\ p = n_at n + n_head n /\ c = n_size n - n_head n.
Definition table_name (wide : bool) : fourcc := if wide then id4 "co64" else id4 "stco".
Definition entry_size (wide : bool) : N := if wide then 8 else 4.
Inductive wcause (f : bytes) : list fourcc -> err -> ustring -> Prop :=
(** The head of a box is cut off, *)
| WCut_size : forall ns q, head_spot f ns q -> blen f < q + 4 -> wcause f ns EIoEof (txt "Error reading atom length")
| WCut_name : forall ns q, head_spot f ns q -> q + 4 <= blen f < q + 8 -> wcause f ns EIoEof (txt "Error reading atom identifier")
| WCut_long_size : forall ns q, head_spot f ns q -> field f q 4 = 1 -> q + 8 <= blen f < q + 16 -> wcause f ns EIoEof (txt "Error reading extended atom length")
(** or its size is too small. *)
| WSmall_size : forall ns q, head_spot f ns q -> q + 8 <= blen f -> field f q 4 < 8 -> field f q 4 <> 1 ->
    wcause f ns EParsing (txt "Read length of '" ++ bytes_text (slice f (q + 4) 4) ++ txt "' which is less than 8 bytes: " ++ dec (field f q 4))
(** The first box is not a file type, or it is cut off, or not text. *)
| WNot_type : forall id head size, box_at f 0 id head size -> id <> id4 "ftyp" -> wcause f [] ENoTag (txt "No filetype atom found.")
| WCut_type : forall head size, box_at f 0 (id4 "ftyp") head size -> blen f < size -> wcause f [] EIoEof []
| WBad_type : forall head size, box_at f 0 (id4 "ftyp") head size -> size <= blen f -> ~ is_utf8 (slice f head (size - head)) -> wcause f [] EUtf8 (txt "Data is not valid utf-8.")
(** There is no movie. *)
| WNo_movie : forall ns, layout f ns -> movie ns = None -> wcause f [] (EAtomNotFound (id4 "moov")) (txt "Missing necessary data, no movie (moov) atom found")
(** A box that ends where one cannot seek to. *)
| WToo_far : forall w q id head size, visited f w q id head size -> scan_opens (inner w) id = None -> 2 ^ 63 <= q + size ->
    wcause f (trail w ++ noted (inner w) id) EIoSeek []
(** Version and flags of the metadata are cut off, or the version is unknown. *)
| WCut_version : forall w q head size, visited f w q (id4 "meta") head size -> inner w = InUdta -> blen f < q + head + 1 ->
    wcause f (trail w ++ [id4 "meta"]) EIoEof (txt "Error reading version of full atom head")
| WCut_flags : forall w q head size, visited f w q (id4 "meta") head size -> inner w = InUdta -> q + head + 1 <= blen f < q + head + 4 ->
    wcause f (trail w ++ [id4 "meta"]) EIoEof (txt "Error reading flags of full atom head")
| WBad_version : forall w q head size, visited f w q (id4 "meta") head size -> inner w = InUdta -> q + head + 4 <= blen f -> field f (q + head) 1 <> 0 ->
    wcause f (trail w ++ [id4 "meta"]) (EUnknownVersion (field f (q + head) 1)) (txt "Unknown metadata (meta) version")
(** The version of a table is unknown, or the number of its offsets does not match its size.  It cannot be cut off: there
    is media data behind it. *)
| WBad_table_version : forall (wide : bool) p c, table_spot f wide p c -> field f p 1 <> 0 ->
    wcause f [table_name wide] (EUnknownVersion (field f p 1))
      (txt (if wide then "Unknown 64bit sample table chunk offset (co64) version" else "Unknown sample table chunk offset (stco) version"))
| WBad_count : forall (wide : bool) p c, table_spot f wide p c -> field f p 1 = 0 -> 8 + entry_size wide * field f (p + 4) 4 <> c ->
    wcause f [table_name wide] EParsing
      (txt (if wide then "Sample table chunk offset 64 (co64) offset table size doesn't match atom length" else "Sample table chunk offset (stco) offset table size doesn't match atom length")).

(** * The file that is written *)

(** [d] in the place of the bytes at [p]. *)
Definition put (p : N) (d : bytes) (f : bytes) : bytes := firstn (N.to_nat p) f ++ d ++ skipn (N.to_nat (p + blen d)) f.

Definition n_end (n : node) : N := n_at n + n_size n.
Definition user_data (mo : node) : option node := final (id4 "udta") (n_inside mo).
Definition metadata (mo : node) : option node := final (id4 "meta") (within_it (user_data mo)).
(** The part of the file that is replaced: the item list, or nothing at the end of the innermost box around it that there
    is. *)
Definition replaced_from (mo : node) : N :=
  match user_data mo, metadata mo with
  | None, _ => n_end mo
  | Some u, None => n_end u
  | Some _, Some e => match final (id4 "ilst") (n_inside e) with Some i => n_at i | None => n_end e end
  end.
Definition replaced_to (mo : node) : N :=
  match user_data mo, metadata mo with
  | None, _ => n_end mo
  | Some u, None => n_end u
  | Some _, Some e => match final (id4 "ilst") (n_inside e) with Some i => n_end i | None => n_end e end
  end.
(** What it is replaced with. *)
Definition replacement (items : list atom_data) (mo : node) : bytes :=
  match user_data mo, metadata mo with
  | None, _ => render (new_udta items)
  | Some _, None => render (new_meta items)
  | Some _, Some e => render_all (match final (id4 "hdlr") (n_inside e) with Some _ => [] | None => [new_hdlr] end ++ [new_ilst items])
  end.
Definition gain (items : list atom_data) (mo : node) : Z :=
  (Z.of_N (blen (replacement items mo)) - Z.of_N (replaced_to mo - replaced_from mo))%Z.
(** The boxes around it. *)
Definition around (mo : node) : list node :=
  mo :: match user_data mo with Some u => [u] | None => [] end ++ match metadata mo with Some e => [e] | None => [] end.
(** A box with a new size. *)
Definition resized (d : Z) (f : bytes) (n : node) : bytes :=
  if n_head n =? 16 then put (n_at n + 8) (be 8 (shift_entry 8 d (n_size n))) (put (n_at n) (be 4 1) f)
  else put (n_at n) (be 4 (shift_entry 4 d (n_size n))) f.
(** A table with new offsets; the old ones are those of [f0]. *)
Definition count (f : bytes) (n : node) : nat := N.to_nat (field f (n_at n + n_head n + 4) 4).
Definition offsets (f : bytes) (wide : bool) (p : N) (k : nat) : list N :=
  map (fun i => field f (p + entry_size wide * N.of_nat i) (entry_size wide)) (seq 0 k).
Definition retabled (f0 : bytes) (d : Z) (f : bytes) (t : bool * node) : bytes :=
  let w := N.to_nat (entry_size (fst t)) in
  let p := n_at (snd t) + n_head (snd t) + 8 in
  put p (flat_map (fun o => be w (shift_entry w d o)) (offsets f0 (fst t) p (count f0 (snd t)))) f.
(** The file: what is before the new boxes has new offsets and sizes, what is behind them is as it was. *)
Definition rewritten (f : bytes) (items : list atom_data) (ns : list node) (mo : node) : bytes :=
  let d := gain items mo in
  let g := fold_left (resized d) (around mo) (if adjusts ns then fold_left (retabled f d) (tables_of ns) f else f) in
  firstn (N.to_nat (replaced_from mo)) g ++ replacement items mo ++ skipn (N.to_nat (replaced_to mo)) f.
(** A table that can be adjusted: of a known version, and with as many offsets as fit in it. *)
Definition sound_table (f : bytes) (t : bool * node) : Prop :=
  let n := snd t in
  field f (n_at n + n_head n) 1 = 0 /\ 8 + entry_size (fst t) * field f (n_at n + n_head n + 4) 4 = n_size n - n_head n.
(** The file after an error: the tables before the one that is not sound have been adjusted. *)
Definition given_up (f : bytes) (items : list atom_data) (g : bytes) : Prop :=
  exists ns mo before t after, layout f ns /\ movie ns = Some mo /\ adjusts ns = true /\ tables_of ns = before ++ t :: after /\
    Forall (sound_table f) before /\ ~ sound_table f t /\ g = fold_left (retabled f (gain items mo)) before f.
