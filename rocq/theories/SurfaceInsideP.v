(* Proofs for C61: texts that stay inside one statement. *)
From Verif Require Export SurfaceApiP.

Lemma read_app : forall x y p, read_text p (x ++ y) = match read_text p x with Some p' => read_text p' y | None => None end.
Proof.
  induction x as [|a x IH]; intros y p; [reflexivity|]. cbn [append read_text]. destruct (read_char p a); [apply IH|reflexivity].
Qed.
Lemma inside_app : forall x y, stays_inside x -> stays_inside y -> stays_inside (x ++ y).
Proof. intros x y Hx Hy. unfold stays_inside in *. rewrite read_app, Hx. exact Hy. Qed.

Lemma read_ident : forall s rest, ~ In """"%char (list_ascii_of_string s) ->
  read_text InIdent (s ++ String """" rest) = read_text Code rest.
Proof.
  induction s as [|c s IH]; intros rest H; [reflexivity|]. cbn [append read_text read_char].
  destruct (Ascii.eqb_spec c """") as [->|_]; [exfalso; apply H; left; reflexivity|].
  apply IH. intro K. apply H. right. exact K.
Qed.
Lemma inside_go_quote {O : Oracle} : forall p, ~ In """"%char (list_ascii_of_string p) -> stays_inside (go_quote p).
Proof.
  intros p H. unfold go_quote, stays_inside, dq, str1. cbn [append read_text read_char].
  change (read_code """") with (Some InIdent). cbn iota. exact (read_ident _ "" (chunks_no_quote p H)).
Qed.
Lemma inside_join : forall l, Forall stays_inside l -> stays_inside (join_with "." l).
Proof.
  induction l as [|x [|y l] IH]; intro H; [reflexivity|inversion_clear H; assumption|].
  change (join_with "." (x :: y :: l)) with (x ++ "." ++ join_with "." (y :: l)).
  inversion_clear H. apply inside_app; [assumption|]. apply inside_app; [reflexivity|]. apply IH. assumption.
Qed.
Lemma inside_quote {O : Oracle} : forall s, ~ In """"%char (list_ascii_of_string s) -> stays_inside (quote s).
Proof.
  intros s H. unfold quote. apply inside_join. apply Forall_forall. intros x Hx.
  apply in_map_iff in Hx. destruct Hx as (p & <- & Hp). apply inside_go_quote.
  intro K. apply H. apply (split_in _ _ _ _ Hp K).
Qed.

Lemma digit_code : forall a, digit_char a = true -> read_code a = Some Code.
Proof. intros [[] [] [] [] [] [] [] []] H; try reflexivity; vm_compute in H; discriminate H. Qed.
Lemma read_digits : forall s, (forall a, In a (list_ascii_of_string s) -> digit_char a = true) -> stays_inside s.
Proof.
  induction s as [|a s IH]; intro H; [reflexivity|]. unfold stays_inside. cbn [read_text read_char].
  rewrite (digit_code a) by (apply H; left; reflexivity). apply IH. intros b Hb. apply H. right. exact Hb.
Qed.
(* After a dollar sign or a dash. *)
Lemma read_after : forall s, (forall a, In a (list_ascii_of_string s) -> digit_char a = true) -> s <> "" ->
  read_text AfterDollar s = Some Code /\ read_text AfterDash s = Some Code.
Proof.
  intros [|a s] H N; [contradiction|]. cbn [read_text read_char].
  assert (Ha : digit_char a = true) by (apply H; left; reflexivity).
  assert (Hs : stays_inside s) by (apply read_digits; intros b Hb; apply H; right; exact Hb).
  rewrite Ha, (digit_code a Ha).
  assert (D : Ascii.eqb a "-" = false) by (destruct (Ascii.eqb_spec a "-") as [->|]; [discriminate Ha|reflexivity]).
  rewrite D. split; exact Hs.
Qed.
Lemma num_digits : forall n a, In a (list_ascii_of_string (string_of_N n)) -> digit_char a = true.
Proof. intros n a H. exact (string_of_N_digits n a H). Qed.
Lemma num_some : forall n, string_of_N n <> "".
Proof. intros n E. destruct (string_of_N_head n) as (a & s & Es & _). rewrite Es in E. discriminate E. Qed.
Lemma inside_Z : forall z, stays_inside (string_of_Z z).
Proof.
  intro z. unfold string_of_Z. destruct (z <? 0)%Z.
  - exact (proj2 (read_after _ (num_digits _) (num_some _))).
  - apply read_digits, num_digits.
Qed.
Lemma inside_dollar : forall k, stays_inside ("$" ++ string_of_nat k).
Proof. intro k. exact (proj1 (read_after _ (num_digits _) (num_some _))). Qed.
Lemma inside_colon : forall k, stays_inside (":arg_" ++ string_of_nat k).
Proof. intro k. apply inside_app; [reflexivity|]. apply read_digits, num_digits. Qed.

Lemma inside_piece {O : Oracle} : forall ws p, Forall safe_word ws -> sql_piece ws p -> stays_inside p.
Proof.
  intros ws p H P. pose proof (proj1 (Forall_forall _ _) H) as F. destruct P as [p I|n I|v I|z I|c I N].
  - assert (A : forallb (fun p => match read_text Code p with Some Code => true | _ => false end) vocabulary = true) by reflexivity.
    pose proof (proj1 (forallb_forall _ _) A p I) as B. cbv beta in B. unfold stays_inside. destruct (read_text Code p) as [[]|]; try discriminate B.
    reflexivity.
  - apply inside_quote. exact (F _ I).
  - exact (F _ I).
  - apply inside_Z.
  - exfalso. apply N. exact (F _ I).
Qed.

(* The hypotheses of SurfaceApiP hold of safe words. *)
Lemma safe_cut : forall s n, safe_word (Name s) -> cut_from n s -> safe_word (Name n).
Proof. intros s n H C K. exact (H (cut_chars n s C _ K)). Qed.
Lemma safe_plain : forall n, (forall a, In a (list_ascii_of_string n) -> plain_char a = true) -> safe_word (Name n).
Proof. intros n H K. pose proof (H _ K) as D. discriminate D. Qed.
Lemma safe_own : forall v, In v own_texts -> safe_word (Verbatim v).
Proof.
  intros v H. repeat (destruct H as [<-|H]; [reflexivity|]). destruct H.
Qed.
Lemma safe_op : forall v, In v operator_texts -> safe_word (Verbatim v).
Proof. intros v H. repeat (destruct H as [<-|H]; [reflexivity|]). destruct H. Qed.
Lemma safe_star : safe_word (Name "*").
Proof. intros [H|[]]. discriminate H. Qed.
Lemma built_safe {O : Oracle} : forall ws s, built ws s -> Forall safe_word ws -> Forall safe_word (stmt_words s).
Proof.
  apply (built_ok safe_word); [exact safe_cut|exact safe_plain|exact safe_star|exact safe_own|exact (fun _ => I)|reflexivity].
Qed.

Lemma built_traced {O : Oracle} : forall ws s, built ws s -> Forall (traced ws) (stmt_words s).
Proof.
  intros ws s H. refine (built_ok (traced ws) _ _ _ _ _ _ ws s H _).
  - intros t n. cbn [traced]. intros [(s0 & I & C)|[P| ->]] K.
    + left. exists s0. split; [exact I|]. exact (cut_trans _ _ _ K C).
    + right. left. intros a Ha. apply P. exact (cut_chars _ _ K a Ha).
    + destruct n as [|a n]; [right; left; intros a []|]. right. right. destruct K as (x & y & E).
      destruct x as [|b x]; cbn [append] in E; [|destruct x; discriminate E].
      injection E as <- E. destruct n; [reflexivity|discriminate E].
  - intros n P. right. left. exact P.
  - right. right. reflexivity.
  - intros v I. right. exact I.
  - intros z. exact I.
  - right. reflexivity.
  - apply Forall_forall. intros x I. destruct x as [n|v|z|c]; cbn [traced]; try exact Logic.I; try (left; exact I).
    left. exists n. split; [exact I|apply cut_refl].
Qed.
