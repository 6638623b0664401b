(* Proofs for C21, C22 and C43. *)
From Verif Require Export Conv Build GoStrP NumeralsP.

(* ------------------------------------------------------------------------- *)
(* Integers                                                                    *)
(* ------------------------------------------------------------------------- *)

Lemma conv_int64_id : forall z, int64_ok z = true -> conv_int64 z = z.
Proof.
  intros z H. unfold int64_ok in H. apply andb_prop in H. destruct H as [L U].
  apply Z.leb_le in L. apply Z.leb_le in U. unfold conv_int64. rewrite Z.mod_small by lia. lia.
Qed.
Lemma int_ok_64 : forall k z, int_ok k z = true -> k <> KUint -> k <> KUint64 -> int64_ok z = true.
Proof.
  intros k z H N N'. unfold int_ok in H. apply andb_prop in H. destruct H as [L U].
  apply Z.leb_le in L. apply Z.leb_le in U. unfold int64_ok. apply andb_true_intro.
  destruct k; try contradiction; cbn [ikind_lo ikind_hi] in *; split; apply Z.leb_le; lia.
Qed.
Lemma parse_digits_spec : forall s acc, parse_digits s acc = dec_digits acc s.
Proof.
  induction s as [|a s IH]; intro acc; [reflexivity|]. cbn [parse_digits dec_digits].
  unfold digit_val, dec_digit, between, byte. destruct ((48 <=? N_of_ascii a)%N && (N_of_ascii a <=? 57)%N); [apply IH|reflexivity].
Qed.
Lemma parse_uint_spec : forall s, parse_uint s = dec_nat s.
Proof. intros [|a s]; [reflexivity|]. unfold parse_uint, dec_nat. apply parse_digits_spec. Qed.
Lemma parse_int_spec : forall s,
  parse_int s = match signed_value s with Some z => if int64_ok z then Some z else None | None => None end.
Proof.
  intros [|a s]; [reflexivity|]. unfold parse_int, signed_value, dec_value. rewrite !parse_uint_spec.
  destruct (Ascii.eqb_spec a "-"%char) as [->|N]; [reflexivity|].
  destruct (Ascii.eqb a "+"%char); reflexivity.
Qed.

Lemma to_int64_spec : forall g z, typed g -> to_int64 g = Some z -> int_value g = Some z /\ int64_ok z = true.
Proof.
  intros g z T E. destruct g; try discriminate E; cbn [typed int_value to_int64] in *.
  - rewrite parse_int_spec in E. destruct (signed_value s) as [z'|]; [|discriminate E].
    destruct (int64_ok z') eqn:I; [|discriminate E]. injection E as <-. auto.
  - assert (A : int64_ok z0 = true -> Some (conv_int64 z0) = Some z -> Some z0 = Some z /\ int64_ok z = true).
    { intros I F. rewrite (conv_int64_id _ I) in F. injection F as <-. auto. }
    destruct k; try discriminate E; try (apply A; [apply (int_ok_64 _ _ T); discriminate|exact E]).
    destruct (Z.leb_spec z0 9223372036854775807); [|discriminate E]. apply A; [|exact E].
    unfold int_ok in T. apply andb_prop in T. destruct T as [L _]. apply Z.leb_le in L. cbn in L.
    unfold int64_ok. apply andb_true_intro. split; apply Z.leb_le; lia.
Qed.

Lemma to_int64_complete : forall g z, typed g -> (forall z, g <> GLimit z) -> (forall z, g <> GOffset z) ->
  (forall x, g <> GInt KUint x) -> int_value g = Some z -> int64_ok z = true -> to_int64 g = Some z.
Proof.
  intros g z T NL NO NU E I. destruct g; try discriminate E; cbn [typed int_value to_int64] in *.
  - rewrite parse_int_spec, E, I. reflexivity.
  - injection E as ->. pose proof (conv_int64_id _ I) as C.
    destruct k; rewrite ?C; try reflexivity; [exfalso; eapply NU; reflexivity|].
    unfold int64_ok in I. apply andb_prop in I. destruct I as [_ U]. rewrite U. reflexivity.
  - exfalso. eapply NL. reflexivity.
  - exfalso. eapply NO. reflexivity.
Qed.

(* ------------------------------------------------------------------------- *)
(* Trimming and splitting                                                      *)
(* ------------------------------------------------------------------------- *)

Lemma drop_while_split : forall A (f : A -> bool) l, exists pre, l = (pre ++ drop_while f l)%list
  /\ Forall (fun x => f x = true) pre /\ forall x r, drop_while f l = x :: r -> f x = false.
Proof.
  intros A f. induction l as [|x l IH]; [exists []; split; [reflexivity|]; split; [constructor|discriminate]|].
  cbn [drop_while]. destruct (f x) eqn:E.
  - destruct IH as (pre & H & P & Q). exists (x :: pre). split; [cbn; f_equal; exact H|]. split; [constructor; assumption|exact Q].
  - exists []. split; [reflexivity|]. split; [constructor|]. intros y r H. injection H as <- _. exact E.
Qed.

Lemma trim_trimmed : forall s, trimmed s (trim_space s).
Proof.
  intro s. unfold trim_space.
  destruct (drop_while_split _ chunk_space (chunks s)) as (pre & H1 & P1 & Q1).
  set (d := drop_while chunk_space (chunks s)) in *.
  destruct (drop_while_split _ chunk_space (rev d)) as (suf & H2 & P2 & Q2).
  set (e := drop_while chunk_space (rev d)) in *.
  exists pre, (rev e), (rev suf).
  assert (D : d = (rev e ++ rev suf)%list). { rewrite <- rev_app_distr, <- H2, rev_involutive. reflexivity. }
  split; [rewrite <- D; exact H1|]. split; [exact P1|]. split; [apply Forall_rev, P2|]. split; [|split; [|reflexivity]].
  - intros c l E. apply (Q1 c (l ++ rev suf)%list). rewrite D, E. reflexivity.
  - intros c l E. apply (Q2 c (rev l)). apply (f_equal (@rev _)) in E. rewrite rev_involutive, rev_app_distr in E. exact E.
Qed.

Lemma drop_while_all : forall A (f : A -> bool) pre l, Forall (fun x => f x = true) pre ->
  drop_while f (pre ++ l)%list = drop_while f l.
Proof. intros A f pre l H. induction H as [|x pre E _ IH]; [reflexivity|]. cbn [app drop_while]. rewrite E. exact IH. Qed.
Lemma drop_while_stop : forall A (f : A -> bool) l, (forall x r, l = x :: r -> f x = false) -> drop_while f l = l.
Proof. intros A f [|x l] H; [reflexivity|]. cbn [drop_while]. rewrite (H x l eq_refl). reflexivity. Qed.

(* The text between the white space is unique. *)
Lemma trimmed_trim : forall s t, trimmed s t -> t = trim_space s.
Proof.
  intros s t (b & i & a & H & Pb & Pa & Qb & Qa & ->). unfold trim_space. rewrite H, drop_while_all by exact Pb.
  destruct i as [|c i].
  - cbn [app map concat_str]. rewrite <- (app_nil_r a), drop_while_all by exact Pa. reflexivity.
  - cbn [app]. rewrite (drop_while_stop _ _ (c :: i ++ a)%list).
    2: { intros x r E. injection E as <- _. exact (Qb c i eq_refl). }
    change (c :: i ++ a)%list with ((c :: i) ++ a)%list.
    rewrite rev_app_distr, drop_while_all by (apply Forall_rev, Pa).
    rewrite drop_while_stop.
    + rewrite rev_involutive. reflexivity.
    + intros x r E. apply (Qa x (rev r)). apply (f_equal (@rev _)) in E. rewrite rev_involutive in E. exact E.
Qed.

Lemma split_item : forall i s, ~ In ","%char (list_ascii_of_string i) ->
  split_on "," (i ++ "," ++ s) = i :: split_on "," s.
Proof.
  induction i as [|a i IH]; intros s H; [reflexivity|]. cbn [append split_on].
  destruct (Ascii.eqb_spec a ",") as [->|N]; [exfalso; apply H; left; reflexivity|].
  change ("," ++ s)%string with (String "," s) in IH. cbn [append] in IH. rewrite IH.
  - reflexivity.
  - intro I. apply H. right. exact I.
Qed.
Lemma items_split : forall s items, comma_items s items <-> items = split_on "," s.
Proof.
  intros s items. split.
  - intros (N & <- & F). induction F as [|i items Hi F IH]; [contradiction|].
    destruct items as [|j items].
    + cbn [join_with]. symmetry. apply split_none. exact Hi.
    + change (join_with "," (i :: j :: items)) with (i ++ "," ++ join_with "," (j :: items)).
      rewrite split_item by exact Hi. f_equal. apply IH. discriminate.
  - intros ->. split; [apply split_nonempty|]. split; [apply (join_split ",")|].
    apply Forall_forall. intros i H. exact (split_no_sep "," s i H).
Qed.

(* ------------------------------------------------------------------------- *)
(* Columns                                                                     *)
(* ------------------------------------------------------------------------- *)

Definition item_column (i : string) : res column := check_column (lk_column (trim_space i)).

Lemma map_res_app : forall A B (f : A -> res B) l m,
  map_res f (l ++ m)%list = do x <- map_res f l; do y <- map_res f m; Ok (x ++ y)%list.
Proof.
  induction l as [|x l IH]; intro m; cbn [app map_res].
  - cbn [bind]. destruct (map_res f m); reflexivity.
  - destruct (f x); [|reflexivity]. cbn [bind]. rewrite IH. destruct (map_res f l); [|reflexivity]. cbn [bind].
    destruct (map_res f m); reflexivity.
Qed.
Lemma concat_res_cons : forall A (x : res (list A)) l,
  concat_res (x :: l) = do a <- x; do b <- concat_res l; Ok (a ++ b)%list.
Proof.
  intros A x l. unfold concat_res. cbn [map_res]. destruct x; [|reflexivity]. cbn [bind].
  destruct (map_res _ l); reflexivity.
Qed.
Lemma concat_split : forall l,
  concat_res (map (fun s => to_columns1 (GStr s)) l) = map_res item_column (flat_map (split_on ",") l).
Proof.
  induction l as [|s l IH]; [reflexivity|]. cbn [map flat_map]. rewrite concat_res_cons, map_res_app, IH. reflexivity.
Qed.
Lemma concat_split_sel : forall l,
  concat_res (map (fun s => to_selexprs1 (GStr s)) l)
  = do cs <- map_res item_column (flat_map (split_on ",") l); Ok (map SColumn cs).
Proof.
  induction l as [|s l IH]; [reflexivity|]. cbn [map flat_map]. rewrite concat_res_cons, map_res_app, IH.
  cbn [to_selexprs1 as_selexpr]. change (split_columns s) with (map_res item_column (split_on "," s)).
  destruct (map_res item_column (split_on "," s)); [|reflexivity]. cbn [bind].
  destruct (map_res item_column (flat_map (split_on ",") l)); [|reflexivity]. cbn [bind]. rewrite map_app. reflexivity.
Qed.

Lemma to_columns_strings : forall l, to_columns (map GStr l) = map_res item_column (flat_map (split_on ",") l).
Proof.
  intro l. rewrite <- concat_split, <- (map_map GStr to_columns1).
  destruct l as [|a [|b l]]; reflexivity.
Qed.
Lemma to_columns_slice : forall l, to_columns [GStrs l] = map_res item_column (flat_map (split_on ",") l).
Proof. intro l. rewrite <- concat_split. reflexivity. Qed.
Lemma to_selexprs_strings : forall l,
  to_selexprs (map GStr l) = do cs <- map_res item_column (flat_map (split_on ",") l); Ok (map SColumn cs).
Proof.
  intro l. rewrite <- concat_split_sel, <- (map_map GStr to_selexprs1).
  destruct l as [|a [|b l]]; reflexivity.
Qed.

(* One column per item, or a panic when an item is empty. *)
Lemma item_columns : forall items texts, Forall2 trimmed items texts ->
  map_res item_column items =
  if existsb no_str texts then Panic (undefined "column") else Ok (map lk_column texts).
Proof.
  intros items texts H. induction H as [|i t items texts T _ IH]; [reflexivity|].
  apply trimmed_trim in T. subst t. cbn [map_res existsb map]. unfold item_column at 1, check_column. cbn [c_name lk_column].
  destruct (no_str (trim_space i)); [reflexivity|]. cbn [bind orb]. rewrite IH.
  destruct (existsb no_str texts); reflexivity.
Qed.

Lemma split_join : forall l, l <> [] -> split_on "," (join_with "," l) = flat_map (split_on ",") l.
Proof.
  assert (A : forall s t, split_on "," (s ++ "," ++ t) = (split_on "," s ++ split_on "," t)%list).
  { induction s as [|a s IH]; intro t; [reflexivity|]. cbn [append split_on].
    destruct (Ascii.eqb a ","); [change ("," ++ t)%string with (String "," t) in IH; cbn [append] in IH; rewrite IH; reflexivity|].
    change ("," ++ t)%string with (String "," t) in IH. cbn [append] in IH. rewrite IH.
    pose proof (split_nonempty "," s). destruct (split_on "," s); [contradiction|reflexivity]. }
  induction l as [|s [|t l] IH]; intro N; [contradiction|cbn [join_with flat_map]; rewrite app_nil_r; reflexivity|].
  change (join_with "," (s :: t :: l)) with (s ++ "," ++ join_with "," (t :: l)). rewrite A, IH by discriminate. reflexivity.
Qed.
