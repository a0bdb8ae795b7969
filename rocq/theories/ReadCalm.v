(** A computable check that a file has none of the flaws that make the reader panic (for examples). *)

From Coq Require Import List NArith ZArith Bool Lia Arith String.
From Coq Require Import ZifyBool ZifyNat ZifyN.
From Verif Require Import Base BaseLemmas Types TagSpec FileSpec FailSpec PanicSpec.
From Verif Require ErrExact ReadTerm.
Import ListNotations.
Local Open Scope list_scope.

(** * Boxes and descriptors *)

Definition box_of (f : bytes) (q : N) : option (fourcc * N * N) :=
  match slice f (q + 4) 4 with
  | [a; b; c; d] =>
    if field f q 4 =? 1 then if q + 16 <=? blen f then Some (FourCC a b c d, 16, field f (q + 8) 8) else None
    else if (8 <=? field f q 4) && (q + 8 <=? blen f) then Some (FourCC a b c d, 8, field f q 4) else None
  | _ => None
  end.
Lemma box_of_is : forall f q id head size, box_at f q id head size -> box_of f q = Some (id, head, size).
Proof.
  intros f q [a b c d] head size. unfold box_at, box_of, fc_bytes. cbn [fc0 fc1 fc2 fc3]. intros (L & -> & [(E & -> & ->)|(N & G & -> & ->)]).
  - rewrite E. change (1 =? 1) with true. destruct (_ <=? _) eqn:X; [reflexivity|lia].
  - destruct (field f q 4 =? 1) eqn:X; [lia|]. destruct (8 <=? field f q 4) eqn:Y; [|lia]. destruct (q + 8 <=? blen f) eqn:Z; [reflexivity|lia].
Qed.
Fixpoint len_bytes (k : nat) (l i : bytes) : option (bytes * byte) :=
  match l with
  | [] => None
  | z :: r => match k with O => Some (i, z) | S k' => if b2n z <? 128 then Some (i, z) else len_bytes k' r (i ++ [z]) end
  end.
Lemma len_bytes_is : forall k l i i' z, len_bytes k l i = Some (i', z) ->
  exists s r, l = s ++ z :: r /\ i' = i ++ s /\ Forall (fun b => 128 <= b2n b) s /\ (blen s < N.of_nat k /\ b2n z < 128 \/ blen s = N.of_nat k).
Proof.
  induction k as [|k IH]; intros [|y l] i i' z E; cbn [len_bytes] in E; try discriminate.
  - injection E as <- <-. exists [], l. rewrite app_nil_r. split; [reflexivity|]. split; [reflexivity|]. split; [constructor|]. right. reflexivity.
  - destruct (b2n y <? 128) eqn:X.
    + injection E as <- <-. exists [], l. rewrite app_nil_r. split; [reflexivity|]. split; [reflexivity|]. split; [constructor|]. left. change (blen []) with 0. lia.
    + destruct (IH _ _ _ _ E) as (s & r & -> & -> & F & D). exists (y :: s), r. rewrite <- app_assoc. split; [reflexivity|]. split; [reflexivity|]. split; [constructor; [lia|exact F]|].
      rewrite blen_cons. lia.
Qed.
Definition desc_of (f : bytes) (q : N) : option (N * N * N) :=
  match len_bytes 3 (slice f (q + 1) 4) [] with
  | Some (i, z) => if q + (2 + blen i) <=? blen f then Some (field f q 1, 2 + blen i, fold_left (fun a b => a * 128 + b2n b mod 128) (i ++ [z]) 0) else None
  | None => None
  end.
Lemma desc_of_is : forall f q tag n len, desc_of f q = Some (tag, n, len) -> descriptor_at f q tag n len.
Proof.
  intros f q tag n len E. unfold desc_of in E. destruct (len_bytes 3 _ []) as [[i z]|] eqn:X; [|discriminate]. destruct (_ <=? _) eqn:L; [|discriminate]. injection E as <- <- <-.
  destruct (len_bytes_is _ _ _ _ _ X) as (s & r & Es & Ei & F & D). cbn [app] in Ei. subst s. split; [lia|]. split; [reflexivity|]. exists i, z.
  assert (Li : blen i <= 3) by lia. split; [|split; [reflexivity|split; [exact F|split; [lia|reflexivity]]]].
  assert (S4 : slice f (q + 1) 4 = slice f (q + 1) (2 + blen i - 1) ++ slice f (q + 1 + (2 + blen i - 1)) (4 - (2 + blen i - 1))) by (apply ReadTerm.slice_split; lia).
  pose proof (blen_slice f (q + 1) (2 + blen i - 1) ltac:(lia)) as B. rewrite Es in S4. change (z :: r) with ([z] ++ r) in S4. rewrite app_assoc in S4.
  symmetry in S4. apply (f_equal (firstn (List.length (i ++ [z])))) in S4. assert (G : List.length (i ++ [z]) = List.length (slice f (q + 1) (2 + blen i - 1))).
  { rewrite app_length. cbn [List.length]. unfold blen in *. lia. }
  rewrite (firstn_app (List.length (i ++ [z])) (i ++ [z])), Nat.sub_diag, firstn_O, app_nil_r, firstn_all in S4. rewrite G, firstn_app, Nat.sub_diag, firstn_O, app_nil_r, firstn_all in S4. exact S4.
Qed.

(** * Places *)

Definition place_eq : forall x y : (within * N)%type, {x = y} + {x <> y}.
Proof. repeat decide equality. Defined.
Definition mem (x : (within * N)%type) (l : list (within * N)%type) : bool := if in_dec place_eq x l then true else false.
Lemma mem_in : forall x l, mem x l = true -> In x l. Proof. intros x l. unfold mem. destruct (in_dec place_eq x l); [auto|discriminate]. Qed.
Definition succs (f : bytes) (x : (within * N)%type) : list (within * N)%type :=
  let (w, q) := x in
  match box_of f q with
  | Some (id, head, size) => match opens (lv w) id with None => [(w, q + size)] | Some (l, d) => [((l, q + size) :: w, q + head + d)] end
  | None => []
  end ++ match w with (l, e) :: y :: w' => if e <=? q then [(y :: w', q)] else [] | _ => [] end.
Fixpoint explore (n : nat) (f : bytes) (todo seen : list (within * N)%type) : list (within * N)%type :=
  match n, todo with
  | S n', x :: r => if mem x seen then explore n' f r seen else explore n' f (succs f x ++ r) (x :: seen)
  | _, _ => seen
  end.
Definition closed (f : bytes) (S : list (within * N)%type) : bool := mem ([], 0) S && forallb (fun x => forallb (fun y => mem y S) (succs f x)) S.
Lemma closed_all : forall f S, closed f S = true -> forall w q, looks f w q -> In (w, q) S.
Proof.
  intros f S C w q H. apply andb_true_iff in C. destruct C as [C0 C]. rewrite forallb_forall in C.
  assert (G : forall x y, In x S -> In y (succs f x) -> In y S) by (intros x y X Y; specialize (C x X); rewrite forallb_forall in C; now apply mem_in, C).
  induction H as [|w q id head size H IH B O|w q id head size l d H IH B O|l e w q H IH N L]; [now apply mem_in| | |]; apply (G _ _ IH); unfold succs; apply in_or_app.
  - left. rewrite (box_of_is _ _ _ _ _ B), O. now left.
  - left. rewrite (box_of_is _ _ _ _ _ B), O. now left.
  - right. destruct w as [|x w]; [contradiction|]. destruct (e <=? q) eqn:X; [now left|lia].
Qed.
Definition memN (x : N) (l : list N) : bool := existsb (N.eqb x) l.
Lemma memN_in : forall x l, memN x l = true -> In x l.
Proof. intros x l H. unfold memN in H. apply existsb_exists in H. destruct H as (y & H & E). apply N.eqb_eq in E. now subst y. Qed.
Definition dsuccs (f : bytes) (q : N) : list N := match desc_of f q with Some (tag, n, len) => (q + n + len) :: (if tag =? 4 then [q + n + 13] else []) | None => [] end.
Fixpoint dexplore (n : nat) (f : bytes) (todo seen : list N) : list N :=
  match n, todo with
  | S n', x :: r => if memN x seen then dexplore n' f r seen else dexplore n' f (dsuccs f x ++ r) (x :: seen)
  | _, _ => seen
  end.
(** Each of the places has a descriptor or is at the end of the file. *)
Definition dclosed (f : bytes) (D : list N) : bool :=
  forallb (fun q => forallb (fun y => memN y D) (dsuccs f q) && match desc_of f q with Some _ => true | None => blen f <? q + 2 end) D.
Lemma dclosed_all : forall f a D n len, dclosed f D = true -> desc_of f a = Some (3, n, len) -> memN (a + n + 3) D = true -> forall q, looks_desc f a q -> In q D.
Proof.
  intros f a D n len C E M q H. unfold dclosed in C. rewrite forallb_forall in C.
  assert (G : forall q tag n len, In q D -> descriptor_at f q tag n len -> desc_of f q = Some (tag, n, len) /\ forall y, In y (dsuccs f q) -> In y D).
  { intros q' tag n' len' I Da. specialize (C _ I). apply andb_true_iff in C. destruct C as [C1 C2]. split.
    - destruct (desc_of f q') as [[[t k] l]|] eqn:X; [|destruct Da as (L & _ & i & z & _ & Ln & _); lia]. pose proof (desc_of_is _ _ _ _ _ X) as X'.
      destruct (ErrExact.desc_fun _ _ _ _ _ _ _ _ X' Da) as (-> & -> & ->). reflexivity.
    - intros y Y. rewrite forallb_forall in C1. now apply memN_in, C1. }
  induction H as [n' len' Da|q tag n' len' H IH Da|q n' len' H IH Da].
  - pose proof (desc_of_is _ _ _ _ _ E) as X'. destruct (ErrExact.desc_fun _ _ _ _ _ _ _ _ X' Da) as (_ & <- & <-). now apply memN_in.
  - destruct (G _ _ _ _ IH Da) as [X Y]. apply Y. unfold dsuccs. rewrite X. now left.
  - destruct (G _ _ _ _ IH Da) as [X Y]. apply Y. unfold dsuccs. rewrite X. right. now left.
Qed.

(** * Flaws *)

Definition size_ok (head size : N) : bool := (head =? 8) || (16 <=? size) && (size <? 2 ^ 63).
Definition header_ok (f : bytes) (q head size : N) : bool :=
  (negb (field f (q + head) 1 =? 0) || (head + 20 <=? size) && negb (field f (q + head + 12) 4 =? 0)) &&
  (negb (field f (q + head) 1 =? 1) || (head + 32 <=? size) && negb (field f (q + head + 20) 4 =? 0) && (field f (q + head + 24) 8 * 10 ^ 9 <? 2 ^ 64)).
Definition esds_ok (k : nat) (f : bytes) (e a size' d : N) : bool :=
  match desc_of f d with
  | Some (tag, n, len) =>
    negb (tag =? 3) ||
    (d + n <=? a + size') &&
    let D := dexplore k f [d + n + 3] [] in
    memN (d + n + 3) D && dclosed f D &&
    forallb (fun q => (q <=? e) && match desc_of f q with Some (5, _, l) => 2 <=? l | _ => true end) D
  | None => false
  end.
Definition entry_ok (k : nat) (f : bytes) (p size a : N) : bool :=
  match box_of f a with
  | Some (id, head', size') => negb (fourcc_eqb id (id4 "esds")) || size_ok head' size' && esds_ok k f (p + size) a size' (a + head' + 4)
  | None => true
  end.
Definition place_ok (k : nat) (f : bytes) (x : (within * N)%type) : bool :=
  let (w, q) := x in
  match box_of f q with
  | Some (id, head, size) =>
    size_ok head size &&
    match lv w with
    | InItem => (negb (fourcc_eqb id (id4 "data")) || (head + 8 <=? size)) && (negb (fourcc_eqb id (id4 "mean") || fourcc_eqb id (id4 "name")) || (head + 4 <=? size))
    | InMoov => negb (fourcc_eqb id (id4 "mvhd")) || header_ok f q head size
    | InStsd => negb (fourcc_eqb id (id4 "mp4a")) || entry_ok k f q size (q + head + 28)
    | _ => true
    end
  | None => true
  end.
Definition calm (n : nat) (f : bytes) : bool := let S := explore n f [([], 0)] [] in closed f S && forallb (place_ok n f) S.
Lemma calm_no_flaw : forall n f, calm n f = true -> ~ flaw f.
Proof.
  intros n f H. unfold calm in H. cbv zeta in H. apply andb_true_iff in H. destruct H as [C P]. rewrite forallb_forall in P.
  assert (A : forall w q id head size, looks f w q -> box_at f q id head size -> place_ok n f (w, q) = true /\ box_of f q = Some (id, head, size)).
  { intros w q id head size K B. split; [apply P; now apply (closed_all f _ C)|now apply box_of_is]. }
  assert (En : forall p size a size' d, entry_at f p size a size' d -> exists head', box_at f a (id4 "esds") head' size' /\ d = a + head' + 4 /\ size_ok head' size' = true /\ esds_ok n f (p + size) a size' d = true).
  { intros p size a size' d (w & head & head' & K & Lw & B & -> & B' & ->). exists head'. split; [exact B'|]. split; [reflexivity|]. destruct (A _ _ _ _ _ K B) as [X E]. unfold place_ok in X. rewrite E, Lw in X.
    apply andb_true_iff in X. destruct X as [_ X]. change (fourcc_eqb (id4 "mp4a") (id4 "mp4a")) with true in X. cbn [negb orb] in X. unfold entry_ok in X. rewrite (box_of_is _ _ _ _ _ B') in X.
    change (fourcc_eqb (id4 "esds") (id4 "esds")) with true in X. cbn [negb orb] in X. apply andb_true_iff in X. exact X. }
  assert (Ds : forall p size a size' d, entry_at f p size a size' d -> (forall n len, descriptor_at f d 3 n len -> d + n <= a + size') /\
    forall q, looks_desc f d q -> q <= p + size /\ forall n len, descriptor_at f q 5 n len -> 2 <= len).
  { intros p size a size' d K. destruct (En _ _ _ _ _ K) as (head' & _ & _ & _ & X). unfold esds_ok in X. destruct (desc_of f d) as [[[tag n0] len0]|] eqn:E; [|discriminate].
    pose proof (desc_of_is _ _ _ _ _ E) as Da.
    assert (No : tag <> 3 -> forall n len, ~ descriptor_at f d 3 n len) by (intros T n' len' D'; destruct (ErrExact.desc_fun _ _ _ _ _ _ _ _ Da D') as (T' & _); contradiction).
    destruct (N.eq_dec tag 3) as [->|T].
    2: { split; [intros n' len' D'; exfalso; exact (No T _ _ D')|]. intros q L. exfalso. induction L; [eapply No; eassumption| |]; assumption. }
    change (3 =? 3) with true in X. cbn [negb orb] in X. apply andb_true_iff in X. destruct X as [X1 X2]. cbv zeta in X2. set (D := dexplore n f [d + n0 + 3] []) in *. apply andb_true_iff in X2. destruct X2 as [X2 X4].
    apply andb_true_iff in X2. destruct X2 as [X2 X3]. split.
    - intros n' len' D'. destruct (ErrExact.desc_fun _ _ _ _ _ _ _ _ Da D') as (_ & <- & _). lia.
    - intros q L. pose proof (dclosed_all f d D n0 len0 X3 E X2 q L) as I. rewrite forallb_forall in X4. specialize (X4 _ I). apply andb_true_iff in X4. destruct X4 as [Y1 Y2]. split; [lia|].
      intros n' len' D'. unfold dclosed in X3. rewrite forallb_forall in X3. specialize (X3 _ I). apply andb_true_iff in X3. destruct X3 as [_ X3].
      destruct (desc_of f q) as [[[t k] l]|] eqn:Q; [|destruct D' as (L' & _ & i & z & _ & Ln & _); lia].
      pose proof (desc_of_is _ _ _ _ _ Q) as Q'. destruct (ErrExact.desc_fun _ _ _ _ _ _ _ _ Q' D') as (-> & -> & ->). lia. }
  intros F. destruct F as [q id size [[w K]|(p & s & a' & d & K)] Bx Sz|w q head size K Iw Bx Sz|w q id head size K Iw Bx Hi Sz|w q head size K Iw Bx Hd|p size a size' d n0 len K D L|p size a size' d q n0 len K Lk D L|p size a size' d q K Lk L].
  - destruct (A _ _ _ _ _ K Bx) as [X E]. unfold place_ok in X. rewrite E in X. apply andb_true_iff in X. destruct X as [X _]. unfold size_ok in X. lia.
  - destruct (En _ _ _ _ _ K) as (head' & B & _ & X & _). destruct (ErrExact.box_fun _ _ _ _ _ _ _ _ B Bx) as (_ & -> & ->). unfold size_ok in X. lia.
  - destruct (A _ _ _ _ _ K Bx) as [X E]. unfold place_ok in X. rewrite E, Iw in X. apply andb_true_iff in X. destruct X as [_ X]. change (fourcc_eqb (id4 "data") (id4 "data")) with true in X. cbn [negb orb] in X. lia.
  - destruct (A _ _ _ _ _ K Bx) as [X E]. unfold place_ok in X. rewrite E, Iw in X. apply andb_true_iff in X. destruct X as [_ X]. apply andb_true_iff in X. destruct X as [_ X].
    destruct Hi as [-> | ->]; [change (fourcc_eqb (id4 "mean") (id4 "mean")) with true in X|change (fourcc_eqb (id4 "name") (id4 "name")) with true in X; rewrite orb_true_r in X]; cbn [negb orb] in X; lia.
  - destruct (A _ _ _ _ _ K Bx) as [X E]. unfold place_ok in X. rewrite E, Iw in X. apply andb_true_iff in X. destruct X as [_ X]. change (fourcc_eqb (id4 "mvhd") (id4 "mvhd")) with true in X. cbn [negb orb] in X.
    unfold header_ok in X. lia.
  - pose proof (proj1 (Ds _ _ _ _ _ K) _ _ D). lia.
  - pose proof (proj2 (proj2 (Ds _ _ _ _ _ K) _ Lk) _ _ D). lia.
  - pose proof (proj1 (proj2 (Ds _ _ _ _ _ K) _ Lk)). lia.
Qed.
