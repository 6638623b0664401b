(* Proofs for C49: the clauses of a Select and the whole statement. *)
From Verif Require Export GrammarP.
From Verif Require ClausesP.

(* ------------------------------------------------------------------------- *)
(* Constant text, again                                                        *)
(* ------------------------------------------------------------------------- *)

Lemma const_soft : forall h s ts, const_lexes h s ts -> const_lexes false s ts.
Proof.
  intros h s ts H A. destruct (H A) as (x & st & y & H1 & H2 & H3 & H4). exists x, st, y.
  split; [exact H1|]. split; [exact H2|]. split; [exact H3|]. destruct h; [subst; discriminate|exact H4].
Qed.

Lemma const_app : forall h a b ta tb, const_lexes false a ta -> const_lexes h b tb -> b <> "" ->
  ends_token (lit b) = true -> const_lexes h (a ++ b) (ta ++ tb)%list.
Proof.
  intros h a b ta tb Ha Hb N E A. destruct (Ha A) as (x & st & y & H1 & H2 & -> & H4).
  destruct (Hb A) as (x' & st' & y' & H1' & H2' & -> & H4').
  exists (x ++ y ++ x')%list, st', y'. rewrite tokens_app, H1.
  rewrite (ender_tokens A st b x' st' y H2 H4) by (assumption || (destruct b; [congruence|exact E])).
  split; [reflexivity|]. split; [exact H2'|]. split; [rewrite <- !app_assoc; reflexivity|exact H4'].
Qed.

Lemma const_sharp_app : forall h a b ta tb, const_lexes true a ta -> const_lexes h b tb ->
  const_lexes h (a ++ b) (ta ++ tb)%list.
Proof.
  intros h a b ta tb Ha Hb A. destruct (Ha A) as (x & st & y & H1 & H2 & -> & ->).
  destruct (Hb A) as (x' & st' & y' & H1' & H2' & -> & H4'). cbn in H2. injection H2 as <-.
  exists (x ++ x')%list, st', y'. rewrite tokens_app, H1, H1'.
  split; [reflexivity|]. split; [exact H2'|]. split; [rewrite app_nil_r, app_assoc; reflexivity|exact H4'].
Qed.

Lemma const_words : forall ws, forallb bare ws = true -> ws <> [] -> const_lexes false (spaced ws) (map KWord ws).
Proof.
  induction ws as [|x [|y ws] IH]; intros H N; [congruence| |].
  - cbn in H. rewrite andb_true_r in H. apply const_word, H.
  - change (forallb bare (x :: y :: ws)) with (bare x && forallb bare (y :: ws)) in H.
    apply andb_true_iff in H. destruct H as [H1 H2].
    change (spaced (x :: y :: ws)) with (x ++ " " ++ spaced (y :: ws)).
    change (map KWord (x :: y :: ws)) with ([KWord x] ++ ([] ++ map KWord (y :: ws)))%list.
    apply const_app; [apply const_word, H1| |discriminate|reflexivity].
    apply const_sharp_app; [const|]. apply IH; [exact H2|discriminate].
Qed.

Lemma spaced_nonempty : forall ws, forallb bare ws = true -> no_str (spaced ws) = negb (nonempty ws).
Proof.
  intros [|x ws] H; [reflexivity|]. cbn in H. apply andb_true_iff in H. destruct H as [H _].
  destruct x as [|a x]; [discriminate|]. destruct ws; reflexivity.
Qed.

(* ------------------------------------------------------------------------- *)
(* What can follow                                                             *)
(* ------------------------------------------------------------------------- *)

Definition mem (x : string) (l : list string) : bool := existsb (String.eqb x) l.

(* ts starts with one of the words in l, with a word that is not reserved, or is at the end of
   the statement. *)
Definition front (l : list string) (ts : list lexeme) : bool :=
  match ts with
  | KWord x :: _ => mem x l || negb (mem x reserved)
  | [] | KClose :: _ | KSemi :: _ => true
  | _ => false
  end.

Lemma front_strip : forall l k kw ts, front l ts = true -> mem k reserved = true -> mem k l = false ->
  strip (k :: kw) ts = None.
Proof.
  intros l k kw ts H Hr Hl. destruct ts as [|t ts]; [reflexivity|]. destruct t; try reflexivity.
  cbn [strip]. destruct (String.eqb_spec k s) as [->|_]; [|reflexivity].
  cbn [front] in H. rewrite Hr, Hl in H. discriminate.
Qed.

Lemma front_cons : forall k l ts, front l ts = true -> front (k :: l) ts = true.
Proof.
  intros k l ts H. destruct ts as [|t ts]; [reflexivity|]. destruct t; try exact H.
  unfold front, mem in *. cbn [existsb]. destruct (String.eqb s k); [reflexivity|exact H].
Qed.

Lemma front_comma : forall l ts, front l ts = true -> no_comma ts = true.
Proof. intros l ts H. destruct ts as [|[] ts]; try reflexivity. discriminate. Qed.

Lemma front_as : forall l ts, front l ts = true -> mem "AS" l = false -> no_as ts = true.
Proof.
  intros l ts H Hl. destruct ts as [|t ts]; [reflexivity|]. destruct t; try reflexivity. cbn [no_as].
  destruct (String.eqb_spec s "AS") as [->|_]; [|reflexivity]. cbn [front] in H. rewrite Hl in H. discriminate.
Qed.

Lemma front_link : forall l ts, front l ts = true -> mem "AND" l = false -> mem "OR" l = false -> no_link ts = true.
Proof.
  intros l ts H H1 H2. destruct ts as [|t ts]; [reflexivity|]. destruct t; try reflexivity. cbn [no_link].
  destruct (String.eqb_spec s "AND") as [->|_]; [cbn [front] in H; rewrite H1 in H; discriminate|].
  destruct (String.eqb_spec s "OR") as [->|_]; [cbn [front] in H; rewrite H2 in H; discriminate|]. reflexivity.
Qed.

Section Body.
Context {O : Oracle} {sty : style}.

(* A clause that may be absent: what it writes, how it is read, what it can start with. *)
Definition cb {A} (t : tr) (p : nat -> parser A) (x : A) (l l' : list string) : Prop :=
  exists ts, tc t ts /\ (forall T, front l T = true -> front l' (ts ++ T)%list = true)
    /\ forall n T, length ts <= n -> front l T = true -> p n (ts ++ T)%list = Some (x, T).

Lemma strip_words : forall kw ts, strip kw (map KWord kw ++ ts)%list = Some ts.
Proof.
  induction kw as [|x kw IH]; intro ts; [reflexivity|]. cbn [map app strip]. rewrite String.eqb_refl. apply IH.
Qed.

Lemma cb_none : forall A (p : nat -> parser A) none k kw l, mem k reserved = true -> mem k l = false ->
  cb eps (fun n => clause (k :: kw) none (p n)) none l (k :: l).
Proof.
  intros A p none k kw l Hr Hl. exists []. split; [apply tc_eps|]. split; [intros T H; apply front_cons, H|].
  intros n T _ H. cbn [app]. unfold clause. rewrite (front_strip l) by assumption. reflexivity.
Qed.

Lemma cb_some : forall A (p : nat -> parser A) none x k kw l s t ts,
  const_lexes true s (map KWord (k :: kw)) -> tx false t ts ->
  (forall n T, length ts <= n -> front l T = true -> p n (ts ++ T)%list = Some (x, T)) ->
  cb (w " " +++ (w s +++ t)) (fun n => clause (k :: kw) none (p n)) x l (k :: l).
Proof.
  intros A p none x k kw l s t ts C T G. exists (map KWord (k :: kw) ++ ts)%list. split; [|split].
  - change (map KWord (k :: kw) ++ ts)%list with ([] ++ (map KWord (k :: kw) ++ ts))%list.
    apply tc_lead; [const|discriminate|reflexivity|]. apply tx_app; [apply tx_w, C|exact T].
  - intros T' _. cbn [map app front]. unfold mem. cbn [existsb]. rewrite String.eqb_refl. reflexivity.
  - intros n T' Hn Hf. rewrite app_length in Hn. unfold clause. rewrite <- app_assoc, strip_words.
    apply G; [lia|exact Hf].
Qed.

Lemma cb_list : forall E A (wr : E -> tr) (p : nat -> parser A) ok es xs s k kw l,
  const_lexes true s (map KWord (k :: kw)) -> mem k reserved = true -> mem k l = false ->
  (forall r, ok (KComma :: r) = true) -> (forall T, front l T = true -> ok T = true) ->
  Forall2 (back wr p ok) es xs ->
  cb (when (nonempty es) (w " " +++ (w s +++ sep_by ", " (map wr es))))
     (fun n => clause (k :: kw) [] (p_commas (p n))) xs l (k :: l).
Proof.
  intros E A wr p ok es xs s k kw l C Hr Hl H1 H2 F. destruct es as [|e es].
  - inversion F; subst. apply cb_none; assumption.
  - destruct (commas_back E A wr p ok (e :: es) xs H1 ltac:(discriminate) F) as (ts & T & N & G).
    cbn [nonempty when]. eapply cb_some; [exact C|exact T|]. intros n T' Hn Hf.
    apply G; [exact Hn|]. rewrite H2, (front_comma l) by exact Hf. reflexivity.
Qed.

(* ------------------------------------------------------------------------- *)
(* Parts of clauses                                                            *)
(* ------------------------------------------------------------------------- *)

Definition order_of (n : nat) : parser (string * string) := p_order.
Definition name_of (n : nat) : parser name := p_name.
Definition table_of (n : nat) : parser tableref := p_table.
(* An item does not start with what can follow SELECT. *)
Definition item_ok (ts : list lexeme) : bool :=
  match ts with KWord x :: _ => negb (String.eqb x "ON" || String.eqb x "DISTINCT") | _ => true end.
Definition item_of (n : nat) : parser item := fun ts => if item_ok ts then p_item (p_query n) ts else None.
Lemma item_of_ok : forall n ts, item_ok ts = true -> item_of n ts = p_item (p_query n) ts.
Proof. intros n ts H. unfold item_of. rewrite H. reflexivity. Qed.
Lemma item_of_some : forall n ts x, item_of n ts = Some x -> item_ok ts = true /\ p_item (p_query n) ts = Some x.
Proof. intros n ts x H. unfold item_of in H. destruct (item_ok ts); [split; [reflexivity|exact H]|discriminate]. Qed.
Lemma commas_mono : forall A (p q : parser A), (forall ts x, p ts = Some x -> q ts = Some x) ->
  forall m ts x, commas_fuel m p ts = Some x -> commas_fuel m q ts = Some x.
Proof.
  intros A p q H. induction m as [|m IH]; intros ts x E; [discriminate|]. cbn [commas_fuel] in *.
  destruct (p ts) as [[y r]|] eqn:Ep; [|discriminate]. rewrite (H _ _ Ep). cbn [andthen] in *.
  destruct r as [|[] r]; try exact E. destruct (commas_fuel m p r) as [[ys r']|] eqn:Er; [|discriminate].
  rewrite (IH _ _ Er). exact E.
Qed.
Lemma items_read : forall n ts x, p_commas (item_of n) ts = Some x ->
  item_ok ts = true /\ p_commas (p_item (p_query n)) ts = Some x.
Proof.
  intros n ts x H. split.
  - unfold p_commas in H. destruct (length ts) as [|m]; [discriminate|]. cbn [commas_fuel] in H.
    destruct (item_of n ts) as [y|] eqn:E; [|discriminate]. apply item_of_some in E. apply E.
  - unfold p_commas in *. eapply commas_mono; [|exact H]. intros us y E. apply item_of_some in E. apply E.
Qed.
Definition with_of (n : nat) : parser (string * squery) := p_with (p_query n).

  Lemma column_back : forall x, plain_name x = true -> back write_column name_of any (lk_column x) (parts_of x).
  Proof.
    intros x H. exists [KName (parts_of x)]. split.
    - unfold write_column, lk_column. cbn [c_name c_alias when no_str negb String.eqb]. rewrite cat_eps_r.
      apply tx_name, H.
    - split; [discriminate|]. reflexivity.
  Qed.

  (* AS alias *)
  Lemma alias_tokens : forall t ts a, tx false t ts -> plain_alias a = true ->
    tx false (t +++ when (negb (no_str a)) (w (" AS " ++ quote a)))
       (ts ++ match a with "" => [] | _ => [KWord "AS"; KName (parts_of a)] end)%list.
  Proof.
    intros t ts a T H. unfold plain_alias in H. destruct (String.eqb_spec a "") as [->|Na].
    - cbn [no_str when negb]. change (no_str "") with true. cbn [negb when]. rewrite cat_eps_r, app_nil_r. exact T.
    - cbn [orb] in H. unfold no_str. rewrite (proj2 (String.eqb_neq _ _) Na). cbn [negb when].
      destruct a as [|c a]; [congruence|].
      apply tx_const; [exact T| |discriminate|reflexivity].
      change [KWord "AS"; KName (parts_of (String c a))] with ([KWord "AS"] ++ [KName (parts_of (String c a))])%list.
      apply const_sharp_app; [const|apply const_name, H].
  Qed.

  Lemma alias_read : forall a rest, plain_alias a = true -> no_as rest = true ->
    clause ["AS"] [] p_name (match a with "" => [] | _ => [KWord "AS"; KName (parts_of a)] end ++ rest)%list
    = Some (parts_of a, rest).
  Proof.
    intros a rest H Hr. destruct a as [|c a]; [|reflexivity]. cbn [app]. unfold clause.
    destruct rest as [|t rest]; [reflexivity|]. destruct t; try reflexivity. cbn [no_as strip] in *.
    apply negb_true_iff in Hr. rewrite String.eqb_sym, Hr. reflexivity.
  Qed.

  Definition alias_toks (a : string) : list lexeme :=
    match a with "" => [] | _ => [KWord "AS"; KName (parts_of a)] end.

  Lemma table_back : forall t, plain_name (t_name t) = true -> plain_alias (t_alias t) = true ->
    back write_table table_of no_as t {| tb_only := t_only t; tb_name := parts_of (t_name t); tb_alias := parts_of (t_alias t) |}.
  Proof.
    intros t Hn Ha.
    exists ((if t_only t then [KWord "ONLY"] else []) ++ KName (parts_of (t_name t)) :: alias_toks (t_alias t))%list. split.
    - unfold write_table.
      replace ((if t_only t then [KWord "ONLY"] else []) ++ KName (parts_of (t_name t)) :: alias_toks (t_alias t))%list
        with (((if t_only t then [KWord "ONLY"] else []) ++ [KName (parts_of (t_name t))]) ++ alias_toks (t_alias t))%list
        by (rewrite <- app_assoc; reflexivity).
      apply alias_tokens; [|exact Ha]. destruct (t_only t); cbn [when].
      + apply tx_app; [apply tx_w; const|apply tx_name, Hn].
      + rewrite cat_eps_l. apply tx_name, Hn.
    - split; [destruct (t_only t); discriminate|]. intros n rest _ Hr. unfold table_of, p_table.
      assert (E : clause ["AS"] [] p_name (alias_toks (t_alias t) ++ rest)%list = Some (parts_of (t_alias t), rest))
        by (apply alias_read; assumption).
      assert (F : forall m r, flag ["ONLY"] (KName m :: r) = Some (false, KName m :: r)) by reflexivity.
      assert (F' : forall r, flag ["ONLY"] (KWord "ONLY" :: r) = Some (true, r)) by reflexivity.
      destruct (t_only t); cbn [app]; [rewrite F'|rewrite F]; cbn [andthen p_name]; rewrite E; reflexivity.
  Qed.

  Lemma table_value_raw : forall t r, table_value_says t r ->
    plain_name (t_name t) = true /\ plain_alias (t_alias t) = true
    /\ r = {| tb_only := t_only t; tb_name := parts_of (t_name t); tb_alias := parts_of (t_alias t) |}.
  Proof.
    intros t r H. induction H as [x H|t o n a H (H1 & H2 & E)|t o n a x H (H1 & H2 & E) Hx].
    - split; [exact H|]. split; reflexivity.
    - split; [exact H1|]. split; [exact H2|]. injection E as -> -> ->. reflexivity.
    - split; [exact H1|]. split; [unfold plain_alias; cbn [t_alias table_as]; rewrite Hx; apply orb_true_r|].
      injection E as -> -> ->. reflexivity.
  Qed.

  Lemma table_says_back : forall g t, table_says g t -> exists tb,
    to_fromitem g = Ok (FTable tb) /\ to_table g = Ok tb /\ no_str (t_name tb) = false
    /\ back write_table table_of no_as tb t
    /\ match g with GStr s => tb = lk_table s | GTable t => tb = t | _ => False end.
  Proof.
    intros g t [x H|t' r H0].
    - exists (lk_table x). split; [reflexivity|]. unfold to_table. cbn [bind t_name lk_table].
      rewrite plain_name_nonempty by exact H. split; [reflexivity|]. split; [reflexivity|]. split; [|reflexivity].
      apply (table_back (lk_table x)); [exact H|reflexivity].
    - destruct (table_value_raw _ _ H0) as (H & H' & ->). exists t'. split; [reflexivity|]. unfold to_table. cbn [bind].
      rewrite plain_name_nonempty by exact H. split; [reflexivity|]. split; [reflexivity|]. split; [|reflexivity].
      apply table_back; assumption.
  Qed.

  Lemma order_raw : forall o x, order_says o x ->
    x = (o_expr o, o_type o) /\ bare (o_expr o) = true /\ In (o_type o) ["ASC"; "DESC"].
  Proof.
    intros o x [y Hy|y d Hy Hd|y d Hy Hd|c y d Hy Hd].
    - split; [reflexivity|]. split; [exact Hy|left; reflexivity].
    - split; [reflexivity|]. split; [exact Hy|exact Hd].
    - split; [reflexivity|]. split; [exact Hy|exact Hd].
    - unfold column_order, column_as. cbn [c_alias c_name o_expr o_type].
      replace (no_str y) with false by (destruct y; [discriminate|reflexivity]).
      split; [reflexivity|]. split; [exact Hy|exact Hd].
  Qed.

  Lemma order_back : forall o x, order_says o x -> back write_order order_of any o x.
  Proof.
    intros o x H. destruct (order_raw o x H) as (-> & Hx & Hd).
    exists [KWord (o_expr o); KWord (o_type o)]. split.
    - unfold write_order. replace (no_str (o_expr o)) with false
        by (destruct (o_expr o); [discriminate|reflexivity]). cbn [negb when].
      apply tx_w. change [KWord (o_expr o); KWord (o_type o)] with ([KWord (o_expr o)] ++ ([] ++ [KWord (o_type o)]))%list.
      apply const_app; [apply const_word, Hx| |discriminate|reflexivity].
      apply const_sharp_app; [const|]. apply const_word.
      destruct Hd as [<- | [<- | []]]; reflexivity.
    - split; [discriminate|]. intros n rest _ _. unfold order_of, p_order. cbn [app p_word andthen].
      destruct Hd as [<- | [<- | []]]; reflexivity.
  Qed.

  (* Items of a SELECT. *)
  Lemma item_column_back : forall c, plain_name (c_name c) = true -> plain_alias (c_alias c) = true ->
    back (write_selexpr write_expr) item_of no_as (SColumn c) (ItName (parts_of (c_name c)) (parts_of (c_alias c))).
  Proof.
    intros c Hn Ha. exists ([KName (parts_of (c_name c))] ++ alias_toks (c_alias c))%list. split.
    - cbn [write_selexpr]. unfold write_column. apply alias_tokens; [apply tx_name, Hn|exact Ha].
    - split; [discriminate|]. intros n rest _ Hr. rewrite item_of_ok by reflexivity. cbn [app p_item].
      assert (E : clause ["AS"] [] p_name (alias_toks (c_alias c) ++ rest)%list = Some (parts_of (c_alias c), rest))
        by (apply alias_read; assumption).
      rewrite E. reflexivity.
  Qed.

  Definition word_alias (a : string) : list lexeme := match a with "" => [] | _ => [KWord "AS"; KWord a] end.
  Definition arg_toks (x : string) : list lexeme := if String.eqb x "*" then [KOp "*"] else [KWord x].

  Lemma column_raw : forall c n a, column_says c n a ->
    plain_name (c_name c) = true /\ plain_alias (c_alias c) = true
    /\ n = parts_of (c_name c) /\ a = parts_of (c_alias c).
  Proof.
    intros c n a H. induction H as [x H|c n a x H (H1 & H2 & H3 & H4) Hx].
    - split; [exact H|]. split; [reflexivity|]. split; reflexivity.
    - split; [exact H1|]. split; [unfold plain_alias; cbn [c_alias column_as]; rewrite Hx; apply orb_true_r|].
      split; [exact H3|reflexivity].
  Qed.

  Lemma agg_raw : forall e f d x a, aggregate_says e f d x a ->
    e = SAgg f x d a /\ In f ["COUNT"; "MAX"; "MIN"; "SUM"] /\ agg_arg x = true
    /\ String.eqb a "" || bare a = true.
  Proof.
    intros e f d x a H. induction H as [x H|x H|x H|x H|e f d x a b H (-> & H1 & H2 & H3) Hb|e d x a v H (-> & H1 & H2 & H3)];
      try (split; [reflexivity|]; split; [cbn; tauto|]; split; [exact H|reflexivity]).
    - split; [reflexivity|]. split; [exact H1|]. split; [exact H2|]. rewrite Hb. apply orb_true_r.
    - split; [reflexivity|]. split; [exact H1|]. split; [exact H2|exact H3].
  Qed.

  Lemma item_agg_back : forall f x d a, In f ["COUNT"; "MAX"; "MIN"; "SUM"] ->
    (bare x && negb (String.eqb x "DISTINCT")) || String.eqb x "*" = true -> String.eqb a "" || bare a = true ->
    back (write_selexpr write_expr) item_of no_as (SAgg f x d a) (ItAgg f d x a).
  Proof.
    intros f x d a Hf Hx Ha.
    exists (KWord f :: KOpen :: (if d then [KWord "DISTINCT"] else []) ++ arg_toks x ++ KClose :: word_alias a)%list. split.
    - cbn [write_selexpr].
      replace (KWord f :: KOpen :: (if d then [KWord "DISTINCT"] else []) ++ arg_toks x ++ KClose :: word_alias a)%list
        with (((([KWord f; KOpen] ++ (if d then [KWord "DISTINCT"] else [])) ++ arg_toks x) ++ [KClose]) ++ word_alias a)%list
        by (rewrite <- !app_assoc; cbn [app]; reflexivity).
      assert (T : tx false (w (f ++ "(") +++ when d (w "DISTINCT ") +++ w x +++ w ")")
                    ((([KWord f; KOpen] ++ (if d then [KWord "DISTINCT"] else [])) ++ arg_toks x) ++ [KClose])%list).
      { apply tx_const; [|const|discriminate|reflexivity]. apply tx_app.
        - apply tx_app; [apply tx_w; destruct Hf as [<- | [<- | [<- | [<- | []]]]]; const|].
          destruct d; cbn [when]; [apply tx_w; const|apply tx_eps].
        - apply tx_w. unfold arg_toks. destruct (String.eqb_spec x "*") as [->|Nx]; [const|].
          apply const_word. rewrite orb_false_r in Hx. apply andb_true_iff in Hx. apply Hx. }
      unfold write_alias. destruct a as [|c a].
      + cbn [word_alias]. rewrite app_nil_r. change (negb (no_str "")) with false. cbn [when].
        rewrite cat_eps_r. exact T.
      + change (negb (no_str (String c a))) with true. cbn [when word_alias].
        apply tx_const; [exact T| |discriminate|reflexivity].
        change [KWord "AS"; KWord (String c a)] with ([KWord "AS"] ++ [KWord (String c a)])%list.
        apply const_sharp_app; [const|apply const_word, Ha].
    - split; [discriminate|]. intros n rest _ Hr.
      rewrite item_of_ok by (destruct Hf as [<- | [<- | [<- | [<- | []]]]]; reflexivity).
      assert (E : clause ["AS"] "" p_word (word_alias a ++ rest)%list = Some (a, rest)).
      { destruct a as [|c a]; [|reflexivity]. cbn [app word_alias]. unfold clause.
        destruct rest as [|t rest]; [reflexivity|]. destruct t; try reflexivity. cbn [no_as strip] in *.
        apply negb_true_iff in Hr. rewrite String.eqb_sym, Hr. reflexivity. }
      assert (G : p_parens (fun ts => read d r from flag ["DISTINCT"] ts; read a r1 from p_agg_arg r; Some ((d, a), r1))
                    (KOpen :: ((if d then [KWord "DISTINCT"] else []) ++ arg_toks x ++ KClose :: word_alias a) ++ rest)%list
                  = Some ((d, x), (word_alias a ++ rest)%list)).
      { cbn [p_parens]. rewrite <- !app_assoc. cbn [app]. unfold arg_toks.
        destruct (String.eqb_spec x "*") as [->|Nx].
        - destruct d; reflexivity.
        - rewrite orb_false_r in Hx. apply andb_true_iff in Hx. destruct Hx as [_ Hx]. apply negb_true_iff in Hx.
          destruct d; cbn [app flag clause strip]; [reflexivity|]. unfold flag, clause. cbn [strip].
          rewrite String.eqb_sym, Hx. reflexivity. }
      destruct Hf as [<- | [<- | [<- | [<- | []]]]]; cbn [app p_item strip_any strip String.eqb andthen p_word];
        unfold p_item; cbn [strip_any strip p_word andthen]; rewrite G; cbn [andthen fst snd]; rewrite E; reflexivity.
  Qed.

  Lemma item_raw_back : forall s f d x a, raw_item s f d x a -> back (write_selexpr write_expr) item_of no_as (SRaw s) (ItAgg f d x a).
  Proof.
    intros s f d x a [f' d' x' a' Hf Hx Ha].
    destruct (item_agg_back f' x' d' a' Hf Hx) as (ts & (q & F & L) & G).
    { destruct Ha as [->|Ha]; [reflexivity|rewrite Ha; apply orb_true_r]. }
    exists ts. split; [|exact G]. exists q. split; [|exact L]. rewrite <- F. cbn [write_selexpr].
    rewrite !ClausesP.flat_rcat, ClausesP.flat_when. unfold write_alias, aggregate_text. rewrite ClausesP.flat_when, !flat_w. unfold no_str.
    destruct d', (String.eqb a' ""); unfold ClausesP.rcat; cbn [bind negb]; rewrite !lit_app; cbn [lit]; rewrite ?app_nil_r, <- ?app_assoc; reflexivity.
  Qed.

  Lemma item_exists_back : forall s b, query_back s b ->
    back (write_selexpr write_expr) item_of no_as (SExists (ESelect s)) (ItExists false (Query b))
    /\ back (write_selexpr write_expr) item_of no_as (SNotExists (ESelect s)) (ItExists true (Query b)).
  Proof.
    intros s b (N & ts & T & G & S). split.
    - exists (([KWord "EXISTS"; KOpen] ++ ts) ++ [KClose])%list. split.
      + apply tx_const; [apply tx_app; [apply tx_w; const|exact T]|const|discriminate|reflexivity].
      + split; [discriminate|]. intros n rest Hn _. cbn [length app] in Hn. rewrite app_length in Hn.
        rewrite item_of_ok by reflexivity. cbn [app]. rewrite <- app_assoc. cbn [app]. unfold p_item. cbn [strip_any strip].
        change (String.eqb "NOT" "EXISTS") with false. change (String.eqb "EXISTS" "EXISTS") with true. cbn iota.
        rewrite (read_parens _ _ _ _ _ n rest G) by (cbn [length] in Hn; lia || reflexivity). reflexivity.
    - exists (([KWord "NOT"; KWord "EXISTS"; KOpen] ++ ts) ++ [KClose])%list. split.
      + apply tx_const; [apply tx_app; [apply tx_w; const|exact T]|const|discriminate|reflexivity].
      + split; [discriminate|]. intros n rest Hn _. cbn [length app] in Hn. rewrite app_length in Hn.
        rewrite item_of_ok by reflexivity. cbn [app]. rewrite <- app_assoc. cbn [app]. unfold p_item. cbn [strip_any strip].
        change (String.eqb "NOT" "NOT") with true. change (String.eqb "EXISTS" "EXISTS") with true. cbn iota.
        rewrite (read_parens _ _ _ _ _ n rest G) by (cbn [length] in Hn; lia || reflexivity). reflexivity.
  Qed.

  (* Elements of WITH. *)
  Lemma with_back : forall x s b, bare x = true -> query_back s b ->
    back (write_withq write_expr) with_of any {| wq_name := x; wq_sub := ESelect s |} (x, Query b).
  Proof.
    intros x s b Hx (N & ts & T & G & S). exists ((([KWord x] ++ [KWord "AS"; KOpen]) ++ ts) ++ [KClose])%list. split.
    - unfold write_withq, withq_empty. cbn [wq_name wq_sub is_nil orb].
      replace (no_str x) with false by (destruct x; [discriminate|reflexivity]). cbn [orb].
      rewrite select_empty by exact N. unfold unless. cbn [bind].
      apply tx_const; [|const|discriminate|reflexivity]. apply tx_app; [|exact T]. apply tx_w.
      apply const_app; [apply const_word, Hx|const|discriminate|reflexivity].
    - split; [discriminate|]. intros n rest Hn _. cbn [length app] in Hn. rewrite app_length in Hn. cbn [length] in Hn.
      unfold with_of, p_with. cbn [app]. rewrite <- app_assoc. cbn [app p_word andthen strip].
      change (String.eqb "AS" "AS") with true. cbn iota.
      rewrite (read_parens _ _ _ _ _ n rest G) by (lia || reflexivity). reflexivity.
  Qed.

  (* ----------------------------------------------------------------------- *)
  (* Clauses                                                                   *)
  (* ----------------------------------------------------------------------- *)

  Definition opt_back (e : expr) (o : option formula) : Prop :=
    match o with None => e = ENil | Some f => cond_back e f end.

  Lemma cond_empty_back : forall e f, cond_back e f -> cond_empty e = Ok false.
  Proof. intros e f (N & E & _). unfold cond_empty. rewrite N. exact E. Qed.

  Lemma cb_cond : forall k s e o l (wr : expr -> tr), const_lexes true s [KWord k] ->
    mem k reserved = true -> mem k l = false -> mem "AND" l = false -> mem "OR" l = false ->
    (forall f, cond_back e f -> wr e = w s +++ write_expr e) -> opt_back e o ->
    cb (unless (cond_empty e) (w " " +++ wr e)) (fun n => optional [k] (Grammar.p_cond (p_query n))) o l (k :: l).
  Proof.
    intros k s e o l wr C Hr Hl Ha Ho W H. destruct o as [f|]; cbn in H.
    - rewrite (cond_empty_back _ _ H). unfold unless. cbn [bind]. rewrite (W f H). destruct H as (N & E & ts & T & G).
      eapply cb_some; [exact C|exact T|]. intros n T' Hn Hf. cbv beta.
      rewrite (cond_prim f ts n T' G Hn) by (apply (front_link l); assumption). reflexivity.
    - subst. unfold unless. cbn [cond_empty is_nil bind]. apply cb_none; assumption.
  Qed.

  Lemma string_of_Z_N : forall z, (0 <= z)%Z -> string_of_Z z = string_of_N (Z.to_N z).
  Proof. intros [|p|p] H; [reflexivity|reflexivity|lia]. Qed.

  Lemma cb_num : forall k s z l (wr : Z -> tr), const_lexes true s [KWord k] ->
    mem k reserved = true -> mem k l = false -> (0 <= z)%Z ->
    wr z = when (negb (z =? 0)%Z) (w (s ++ string_of_Z z)) ->
    cb (when (negb (z =? 0)%Z) (w " " +++ wr z)) (fun n => optional [k] p_num) (nonzero z) l (k :: l).
  Proof.
    intros k s z l wr C Hr Hl Hz W. unfold nonzero. destruct (Z.eqb_spec z 0) as [->|Nz]; cbn [negb when].
    - apply (cb_none (option N) (fun _ ts => read x r from p_num ts; Some (Some x, r)) None k [] l); assumption.
    - rewrite W. destruct (Z.eqb_spec z 0) as [|_]; [contradiction|]. cbn [negb when].
      exists [KWord k; KNum (Z.to_N z)]. split; [|split].
      + change [KWord k; KNum (Z.to_N z)] with ([] ++ ([KWord k] ++ [KNum (Z.to_N z)]))%list.
        apply tc_lead; [const|discriminate|reflexivity|]. apply tx_w. apply const_sharp_app; [exact C|].
        rewrite string_of_Z_N by exact Hz. apply const_num.
      + intros T _. cbn [app front]. unfold mem. cbn [existsb]. rewrite String.eqb_refl. reflexivity.
      + intros n T _ _. unfold optional, clause. cbn [app strip]. rewrite String.eqb_refl. reflexivity.
  Qed.

  (* Joins. *)
  Definition join_back (j : join) (x : list string * tableref * formula) : Prop :=
    let '(kw, t, f) := x in
    j_type j = spaced kw /\ In kw join_types /\ back write_table table_of no_as (j_table j) t /\ cond_back (j_cond j) f.

  Lemma join_types_const : forall kw, In kw join_types -> const_lexes true (spaced kw ++ " ") (map KWord kw).
  Proof. intros kw H. cbn in H. destruct H as [<- | [<- | [<- | [<- | [<- | []]]]]]; const. Qed.

  Lemma join_types_read : forall kw ts, In kw join_types -> strip_any join_types (map KWord kw ++ ts)%list = Some (kw, ts).
  Proof. intros kw ts H. cbn in H. destruct H as [<- | [<- | [<- | [<- | [<- | []]]]]]; reflexivity. Qed.

  Lemma join_types_front : forall kw l T, In kw join_types ->
    front ("INNER" :: "LEFT" :: "RIGHT" :: l) (map KWord kw ++ T)%list = true /\ no_link (map KWord kw ++ T)%list = true.
  Proof. intros kw l T H. cbn in H. destruct H as [<- | [<- | [<- | [<- | [<- | []]]]]]; split; reflexivity. Qed.

  Lemma strip_any_front : forall l T, front l T = true -> mem "INNER" l = false -> mem "LEFT" l = false ->
    mem "RIGHT" l = false -> strip_any join_types T = None.
  Proof.
    intros l T H H1 H2 H3. unfold join_types. cbn [strip_any].
    rewrite !(front_strip l) by (assumption || reflexivity). reflexivity.
  Qed.

  Lemma joins_back : forall js xs l, Forall2 join_back js xs ->
    mem "INNER" l = false -> mem "LEFT" l = false -> mem "RIGHT" l = false ->
    mem "AND" l = false -> mem "OR" l = false ->
    cb (write_joins write_expr js) (fun n => p_joins (p_query n)) xs l ("INNER" :: "LEFT" :: "RIGHT" :: l).
  Proof.
    intros js xs l F Hi Hl Hr Ha Ho.
    enough (G : exists ts, tc (write_joins write_expr js) ts /\ length xs <= length ts
      /\ (forall T, front l T = true -> front ("INNER" :: "LEFT" :: "RIGHT" :: l) (ts ++ T)%list = true)
      /\ (forall T, front l T = true -> no_link (ts ++ T)%list = true)
      /\ forall n m T, length ts <= n -> length xs <= m -> front l T = true ->
         joins_fuel (p_query n) m (ts ++ T)%list = Some (xs, T)).
    { destruct G as (ts & H1 & H2 & H3 & _ & H4). exists ts. split; [exact H1|]. split; [exact H3|].
      intros n T Hn Hf. unfold p_joins. apply H4; [exact Hn| |exact Hf]. rewrite app_length. lia. }
    induction F as [|j [[kw t] f] js xs (Et & Hk & (tt & Tt & Nt & Gt) & (N & E & tc_ & Tc & Gc)) F IH].
    - exists []. split; [apply tc_eps|]. split; [cbn; lia|].
      split; [intros T H; do 3 apply front_cons; exact H|].
      split; [intros T H; apply (front_link l); assumption|]. intros n m T _ _ H. cbn [app].
      destruct m; cbn [joins_fuel]; rewrite (strip_any_front l) by assumption; reflexivity.
    - destruct IH as (ts & T & L & Fr & Lk & G).
      exists ((map KWord kw ++ tt ++ [KWord "ON"] ++ tc_) ++ ts)%list.
      split; [|split; [|split; [|split]]].
      + cbn [write_joins]. apply tc_app; [|exact T]. unfold write_join.
        change (map KWord kw ++ tt ++ [KWord "ON"] ++ tc_)%list with ([] ++ (map KWord kw ++ tt ++ [KWord "ON"] ++ tc_))%list.
        apply tc_lead; [const|discriminate|reflexivity|]. rewrite !cat_assoc.
        apply tx_app; [apply tx_w; rewrite Et; apply join_types_const, Hk|]. rewrite <- cat_assoc.
        rewrite app_assoc.
        apply tx_app; [apply tx_const; [exact Tt|const|discriminate|reflexivity]|exact Tc].
      + rewrite !app_length. cbn [length]. lia.
      + intros T' _. rewrite <- !app_assoc. apply join_types_front, Hk.
      + intros T' _. rewrite <- !app_assoc. apply (join_types_front kw l), Hk.
      + intros n m T' Hn Hm Hf. destruct m as [|m]; [cbn in Hm; lia|]. cbn [length] in Hm.
        rewrite !app_length in Hn. cbn [length] in Hn.
        rewrite <- !app_assoc. cbn [joins_fuel]. rewrite join_types_read by exact Hk.
        unfold table_of in Gt. rewrite (Gt n) by (lia || reflexivity). cbn [andthen app strip].
        change (String.eqb "ON" "ON") with true. cbn iota.
        rewrite (cond_prim f tc_ n _ Gc) by (lia || (apply Lk; exact Hf)). cbn [andthen].
        rewrite G by (lia || assumption). reflexivity.
  Qed.

  (* ----------------------------------------------------------------------- *)
  (* The statement                                                             *)
  (* ----------------------------------------------------------------------- *)

  Record sel_back (s : select) (b : body) : Prop := {
    sb_prefix : s_prefix s = spaced (q_prefix b);
    sb_prefix_bare : forallb bare (q_prefix b) = true;
    sb_prefix_stop : forallb (fun w => negb (String.eqb w "WITH" || String.eqb w "SELECT")) (q_prefix b) = true;
    sb_with : Forall2 (back (write_withq write_expr) with_of any) (s_with s) (q_with b);
    sb_distinct_on : Forall2 (back write_column name_of any) (s_distinct_on s) (q_distinct_on b);
    sb_distinct : s_distinct s = q_distinct b;
    sb_items : Forall2 (back (write_selexpr write_expr) item_of no_as) (s_exprs s) (q_items b);
    sb_from : Forall2 (back write_fromitem table_of no_as) (s_from s) (q_from b);
    sb_joins : Forall2 join_back (s_joins s) (q_joins b);
    sb_where : opt_back (s_where s) (q_where b);
    sb_group_by : Forall2 (back write_column name_of any) (s_group_by s) (q_group_by b);
    sb_having : opt_back (s_having s) (q_having b);
    sb_order_by : Forall2 (back write_order order_of any) (s_order_by s) (q_order_by b);
    sb_limit : q_limit b = nonzero (s_limit s);
    sb_limit_pos : (0 <= s_limit s)%Z;
    sb_offset : q_offset b = nonzero (s_offset s);
    sb_offset_pos : (0 <= s_offset s)%Z;
    sb_suffix : s_suffix s = spaced (q_suffix b);
    sb_suffix_bare : forallb bare (q_suffix b) = true;
    sb_suffix_head : mem (hd "" (q_suffix b)) reserved = false;
    sb_comment : forallb (fun a => negb (newline a)) (list_ascii_of_string (s_comment s)) = true }.

  (* Sequence of clauses. *)
  Lemma cb_then : forall A B (t u : tr) (p : nat -> parser A) (q : nat -> parser B) x y l l' l'',
    cb t p x l' l'' -> cb u q y l l' ->
    cb (t +++ u) (fun n ts => read a r from p n ts; read b r1 from q n r; Some ((a, b), r1)) (x, y) l l''.
  Proof.
    intros A B t u p q x y l l' l'' (ts & T & F & G) (us & U & F' & G'). exists (ts ++ us)%list.
    split; [apply tc_app; assumption|]. split; [intros T' H; rewrite <- app_assoc; auto|].
    intros n T' Hn H. rewrite app_length in Hn. rewrite <- app_assoc.
    rewrite G by (lia || auto). cbn [andthen]. rewrite G' by (lia || auto). reflexivity.
  Qed.

  (* The text without its comment. *)
  Definition tail_core (s : select) : tr :=
    when (nonempty (s_order_by s)) (w " " +++ write_order_by (s_order_by s))
    +++ (when (negb (s_limit s =? 0)%Z) (w " " +++ write_limit (s_limit s))
    +++ (when (negb (s_offset s =? 0)%Z) (w " " +++ write_offset (s_offset s))
    +++ when (negb (no_str (s_suffix s))) (w " " +++ w (s_suffix s)))).
  Definition rest_core (s : select) : tr :=
    when (nonempty (s_from s)) (w " " +++ write_from (s_from s))
    +++ (write_joins write_expr (s_joins s)
    +++ (unless (cond_empty (s_where s)) (w " " +++ write_where write_expr (s_where s))
    +++ (when (nonempty (s_group_by s)) (w " " +++ write_group_by (s_group_by s))
    +++ (unless (cond_empty (s_having s)) (w " " +++ write_having write_expr (s_having s))
    +++ tail_core s)))).
  Definition items_core (s : select) : tr :=
    when (nonempty (s_distinct_on s)) (w " " +++ write_distinct_on (s_distinct_on s))
    +++ (when (s_distinct s) (w " DISTINCT")
    +++ (w " " +++ (sep_by ", " (map (write_selexpr write_expr) (s_exprs s)) +++ rest_core s))).
  Definition core (s : select) : tr :=
    when (negb (no_str (s_prefix s))) (w (s_prefix s) +++ w " ")
    +++ (when (nonempty (s_with s)) (write_with write_expr (s_with s) +++ w " ")
    +++ (w "SELECT" +++ items_core s)).

  Lemma write_core : forall s, nonempty (s_exprs s) = true ->
    write_select s = core s +++ write_comment (s_comment s).
  Proof.
    intros s N. unfold write_select, write_select_with. rewrite N.
    unfold write_head, write_middle, write_tail, core, items_core, rest_core, tail_core. rewrite N. cbn [when].
    rewrite !cat_assoc. reflexivity.
  Qed.

  Definition p_suffix (ts : list lexeme) : option (list string * list lexeme) := let (x, r) := p_words [] ts in Some (x, r).

  Lemma words_read : forall st ws T, forallb (fun x => negb (mem x st)) ws = true ->
    match T with KWord x :: _ => mem x st = true | _ => True end ->
    p_words st (map KWord ws ++ T)%list = (ws, T).
  Proof.
    intros st ws T H HT. induction ws as [|x ws IH].
    - cbn [map app]. destruct T as [|t T]; [reflexivity|]. destruct t; try reflexivity. cbn [p_words].
      unfold mem in HT. rewrite HT. reflexivity.
    - cbn [forallb] in H. apply andb_true_iff in H. destruct H as [H1 H2]. cbn [map app p_words].
      apply negb_true_iff in H1. unfold mem in H1. rewrite H1, IH by exact H2. reflexivity.
  Qed.

  Lemma write_when_again : forall (b : bool) t, when b (w " " +++ when b t) = when b (w " " +++ t).
  Proof. intros [] t; reflexivity. Qed.

  Lemma with_reads : forall ws xs, Forall2 (back (write_withq write_expr) with_of any) ws xs ->
    exists ts, tx true (when (nonempty ws) (write_with write_expr ws +++ w " ")) ts
      /\ (ts = [] \/ exists r, ts = KWord "WITH" :: r)
      /\ forall n T, length ts <= n ->
         clause ["WITH"] [] (p_commas (p_with (p_query n))) (ts ++ KWord "SELECT" :: T)%list
         = Some (xs, KWord "SELECT" :: T).
  Proof.
    intros ws xs F. destruct ws as [|q ws].
    - inversion F; subst. exists []. split; [apply tx_eps|]. split; [left; reflexivity|]. reflexivity.
    - destruct (commas_back _ _ _ _ _ (q :: ws) xs (fun r => eq_refl) ltac:(discriminate) F) as (ts & T & N & G).
      exists (([KWord "WITH"] ++ ts) ++ [])%list. split; [|split].
      + cbn [nonempty when]. unfold write_with. cbn [nonempty when].
        apply tx_const; [|const|discriminate|reflexivity].
        apply tx_app; [apply tx_w; const|exact T].
      + right. exists (ts ++ [])%list. reflexivity.
      + intros n T' Hn. rewrite app_nil_r in *. cbn [app length] in *. unfold clause. cbn [strip].
        change (String.eqb "WITH" "WITH") with true. cbn iota. apply (G n); [lia|reflexivity].
  Qed.

  Lemma distinct_on_reads : forall cs ns, Forall2 (back write_column name_of any) cs ns ->
    exists ts, tc (when (nonempty cs) (w " " +++ write_distinct_on cs)) ts
      /\ forall n T, length ts <= n -> strip ["DISTINCT"; "ON"] T = None ->
         clause ["DISTINCT"; "ON"] [] (p_parens (p_commas p_name)) (ts ++ T)%list = Some (ns, T).
  Proof.
    intros cs ns F. destruct cs as [|c cs].
    - inversion F; subst. exists []. split; [apply tc_eps|]. intros n T _ H. cbn [app]. unfold clause.
      rewrite H. reflexivity.
    - destruct (commas_back _ _ _ _ _ (c :: cs) ns (fun r => eq_refl) ltac:(discriminate) F) as (ts & T & G).
      exists ([] ++ ((([KWord "DISTINCT"; KWord "ON"; KOpen]) ++ ts) ++ [KClose]))%list. split.
      + unfold write_distinct_on. cbn [nonempty when]. apply tc_lead; [const|discriminate|reflexivity|].
        apply tx_const; [|const|discriminate|reflexivity]. apply tx_app; [apply tx_w; const|exact T].
      + intros n T' Hn _. cbn [app length] in *. rewrite app_length in Hn. cbn [length] in Hn.
        rewrite <- app_assoc. cbn [app]. unfold clause. cbn [strip].
        change (String.eqb "DISTINCT" "DISTINCT") with true. change (String.eqb "ON" "ON") with true. cbn iota.
        apply (read_parens _ (fun _ => p_commas p_name) _ _ _ n T' G); [lia|reflexivity].
  Qed.

  Lemma suffix_front : forall ws T, mem (hd "" ws) reserved = false -> stop T = true ->
    front [] (map KWord ws ++ T)%list = true.
  Proof.
    intros [|x ws] T H HT; cbn [map app].
    - destruct T as [|[] T]; try discriminate; reflexivity.
    - cbn [hd] in H. cbn [front]. rewrite H. reflexivity.
  Qed.

  Lemma stop_words : forall st T, stop T = true -> match T with KWord x :: _ => mem x st = true | _ => True end.
  Proof. intros st [|[] T] H; try exact I. discriminate. Qed.

  Lemma core_reads : forall s b, sel_back s b -> q_items b <> [] ->
    nonempty (s_exprs s) = true
    /\ exists ts, tx false (core s) ts /\ gives p_query stop (Query b) ts /\ starts ts = true.
  Proof.
    intros s b H N.
    assert (Ne : s_exprs s <> []) by (intro E; pose proof (sb_items _ _ H) as F; rewrite E in F; inversion F; congruence).
    split; [destruct (s_exprs s); [congruence|reflexivity]|].
    (* suffix *)
    assert (Hsuf : tc (when (negb (no_str (s_suffix s))) (w " " +++ w (s_suffix s))) (map KWord (q_suffix b))).
    { rewrite (sb_suffix _ _ H). rewrite spaced_nonempty by apply (sb_suffix_bare _ _ H). rewrite negb_involutive.
      destruct (q_suffix b) as [|x l] eqn:E; [apply tc_eps|]. cbn [nonempty when]. rewrite <- E.
      change (map KWord (q_suffix b)) with ([] ++ map KWord (q_suffix b))%list.
      apply tc_lead; [const|discriminate|reflexivity|]. apply tx_w, const_words; [apply (sb_suffix_bare _ _ H)|congruence]. }
    (* the clauses, from the last *)
    pose proof (cb_num "OFFSET" "OFFSET " (s_offset s) [] write_offset ltac:(const) eq_refl eq_refl
                  (sb_offset_pos _ _ H) eq_refl) as (tof & Tof & Fof & Gof).
    pose proof (cb_num "LIMIT" "LIMIT " (s_limit s) ["OFFSET"] write_limit ltac:(const) eq_refl eq_refl
                  (sb_limit_pos _ _ H) eq_refl) as (tli & Tli & Fli & Gli).
    pose proof (cb_list _ _ write_order order_of any (s_order_by s) (q_order_by b) "ORDER BY " "ORDER" ["BY"]
                  ["LIMIT"; "OFFSET"] ltac:(const) eq_refl eq_refl (fun _ => eq_refl) (fun _ _ => eq_refl)
                  (sb_order_by _ _ H)) as (tor & Tor & For & Gor).
    pose proof (cb_cond "HAVING" "HAVING " (s_having s) (q_having b) ["ORDER"; "LIMIT"; "OFFSET"]
                  (write_having write_expr) ltac:(const) eq_refl eq_refl eq_refl eq_refl
                  ltac:(intros f C; unfold write_having; rewrite (cond_empty_back _ _ C); reflexivity)
                  (sb_having _ _ H)) as (tha & Tha & Fha & Gha).
    pose proof (cb_list _ _ write_column name_of any (s_group_by s) (q_group_by b) "GROUP BY " "GROUP" ["BY"]
                  ["HAVING"; "ORDER"; "LIMIT"; "OFFSET"] ltac:(const) eq_refl eq_refl (fun _ => eq_refl) (fun _ _ => eq_refl)
                  (sb_group_by _ _ H)) as (tgr & Tgr & Fgr & Ggr).
    pose proof (cb_cond "WHERE" "WHERE " (s_where s) (q_where b) ["GROUP"; "HAVING"; "ORDER"; "LIMIT"; "OFFSET"]
                  (write_where write_expr) ltac:(const) eq_refl eq_refl eq_refl eq_refl
                  ltac:(intros f C; unfold write_where; rewrite (cond_empty_back _ _ C); reflexivity)
                  (sb_where _ _ H)) as (twh & Twh & Fwh & Gwh).
    pose proof (joins_back (s_joins s) (q_joins b) ["WHERE"; "GROUP"; "HAVING"; "ORDER"; "LIMIT"; "OFFSET"]
                  (sb_joins _ _ H) eq_refl eq_refl eq_refl eq_refl eq_refl) as (tjo & Tjo & Fjo & Gjo).
    pose proof (cb_list _ _ write_fromitem table_of no_as (s_from s) (q_from b) "FROM " "FROM" []
                  ["INNER"; "LEFT"; "RIGHT"; "WHERE"; "GROUP"; "HAVING"; "ORDER"; "LIMIT"; "OFFSET"]
                  ltac:(const) eq_refl eq_refl (fun _ => eq_refl)
                  (fun T F => front_as _ T F eq_refl) (sb_from _ _ H)) as (tfr & Tfr & Ffr & Gfr).
    destruct (commas_back _ _ _ _ no_as (s_exprs s) (q_items b) (fun _ => eq_refl) Ne (sb_items _ _ H))
      as (tit & Tit & Nit & Git).
    destruct (distinct_on_reads _ _ (sb_distinct_on _ _ H)) as (tdo & Tdo & Gdo).
    destruct (with_reads _ _ (sb_with _ _ H)) as (twi & Twi & Swi & Gwi).
    set (tdi := if s_distinct s then [KWord "DISTINCT"] else []).
    set (tail := (tfr ++ tjo ++ twh ++ tgr ++ tha ++ tor ++ tli ++ tof ++ map KWord (q_suffix b))%list).
    assert (Ttail : tc (rest_core s) tail).
    { unfold rest_core, tail_core, tail. rewrite <- write_when_again in Tor.
      repeat (apply tc_app; [assumption|]). exact Hsuf. }
    set (mid := (tdo ++ tdi ++ [] ++ tit ++ tail)%list).
    assert (Tmid : tc (items_core s) mid).
    { unfold items_core, mid. apply tc_app; [exact Tdo|]. apply tc_app.
      - unfold tdi. destruct (s_distinct s); cbn [when]; [apply tc_w; [const|reflexivity]|apply tc_eps].
      - apply tc_lead; [const|discriminate|reflexivity|]. apply tx_tc; [exact Tit|exact Ttail]. }
    assert (Gmid : forall n T, length mid <= n -> stop T = true -> exists r1 r2 r3 r4 r5 r6 r7 r8 r9 r10,
      clause ["DISTINCT"; "ON"] [] (p_parens (p_commas p_name)) (mid ++ T)%list = Some (q_distinct_on b, r1)
      /\ flag ["DISTINCT"] r1 = Some (q_distinct b, r2)
      /\ p_commas (p_item (p_query n)) r2 = Some (q_items b, r3)
      /\ clause ["FROM"] [] (p_commas p_table) r3 = Some (q_from b, r4)
      /\ p_joins (p_query n) r4 = Some (q_joins b, r5)
      /\ optional ["WHERE"] (Grammar.p_cond (p_query n)) r5 = Some (q_where b, r6)
      /\ clause ["GROUP"; "BY"] [] (p_commas p_name) r6 = Some (q_group_by b, r7)
      /\ optional ["HAVING"] (Grammar.p_cond (p_query n)) r7 = Some (q_having b, r8)
      /\ clause ["ORDER"; "BY"] [] (p_commas p_order) r8 = Some (q_order_by b, r9)
      /\ optional ["LIMIT"] p_num r9 = Some (q_limit b, r10)
      /\ exists r11, optional ["OFFSET"] p_num r10 = Some (q_offset b, r11) /\ p_words [] r11 = (q_suffix b, T)).
    { intros n T Hn HT. unfold mid, tail in Hn. rewrite !app_length in Hn. cbn [length] in Hn.
      unfold mid, tail. cbn [app]. rewrite <- !app_assoc.
      pose proof (suffix_front (q_suffix b) T (sb_suffix_head _ _ H) HT) as F0.
      pose proof (Fof _ F0) as F1. pose proof (Fli _ F1) as F2. pose proof (For _ F2) as F3.
      pose proof (Fha _ F3) as F4. pose proof (Fgr _ F4) as F5. pose proof (Fwh _ F5) as F6.
      pose proof (Fjo _ F6) as F7. pose proof (Ffr _ F7) as F8.
      set (r3 := (tfr ++ tjo ++ twh ++ tgr ++ tha ++ tor ++ tli ++ tof ++ map KWord (q_suffix b) ++ T)%list) in *.
      assert (Gi : p_commas (item_of n) (tit ++ r3)%list = Some (q_items b, r3)).
      { apply Git; [lia|]. rewrite (front_as _ _ F8 eq_refl), (front_comma _ _ F8). reflexivity. }
      apply items_read in Gi. destruct Gi as [Oi Gi].
      exists (tdi ++ tit ++ r3)%list, (tit ++ r3)%list, r3. do 7 eexists. split; [|split; [|split; [exact Gi|]]].
      - apply (Gdo n); [lia|]. unfold tdi. destruct (s_distinct s); cbn [app].
        + cbn [strip]. change (String.eqb "DISTINCT" "DISTINCT") with true. cbn iota.
          destruct (tit ++ r3)%list as [|t r]; [reflexivity|]. destruct t; try reflexivity. cbn [item_ok] in Oi.
          apply negb_true_iff, orb_false_iff in Oi. destruct Oi as [Oi _]. cbn [strip].
          rewrite String.eqb_sym, Oi. reflexivity.
        + destruct (tit ++ r3)%list as [|t r]; [reflexivity|]. destruct t; try reflexivity. cbn [item_ok] in Oi.
          apply negb_true_iff, orb_false_iff in Oi. destruct Oi as [_ Oi]. cbn [strip].
          rewrite String.eqb_sym, Oi. reflexivity.
      - rewrite <- (sb_distinct _ _ H). unfold tdi. destruct (s_distinct s); [reflexivity|]. cbn [app].
        unfold flag, clause. replace (strip ["DISTINCT"] (tit ++ r3)%list) with (@None (list lexeme)); [reflexivity|].
        destruct (tit ++ r3)%list as [|t r]; [reflexivity|]. destruct t; try reflexivity. cbn [item_ok] in Oi.
        apply negb_true_iff, orb_false_iff in Oi. destruct Oi as [_ Oi]. cbn [strip].
        rewrite String.eqb_sym, Oi. reflexivity.
      - split; [apply (Gfr n); [lia|exact F7]|]. split; [apply Gjo; [lia|exact F6]|].
        split; [apply Gwh; [lia|exact F5]|]. split; [apply (Ggr n); [lia|exact F4]|].
        split; [apply Gha; [lia|exact F3]|]. split; [apply (Gor n); [lia|exact F2]|].
        split; [rewrite (sb_limit _ _ H); apply (Gli n); [lia|exact F1]|].
        eexists. split; [rewrite (sb_offset _ _ H); apply (Gof n); [lia|exact F0]|].
        apply words_read; [|apply stop_words, HT]. clear. induction (q_suffix b); [reflexivity|assumption]. }
    exists (map KWord (q_prefix b) ++ twi ++ [KWord "SELECT"] ++ mid)%list. split; [|split].
    - unfold core.
      assert (Tp : tx true (when (negb (no_str (s_prefix s))) (w (s_prefix s) +++ w " ")) (map KWord (q_prefix b))).
      { rewrite (sb_prefix _ _ H). rewrite spaced_nonempty by apply (sb_prefix_bare _ _ H). rewrite negb_involutive.
        destruct (q_prefix b) as [|x l] eqn:E; [apply tx_eps|]. cbn [nonempty when]. rewrite <- E.
        rewrite <- (app_nil_r (map KWord (q_prefix b))).
        apply tx_const; [|const|discriminate|reflexivity].
        apply tx_w, const_words; [apply (sb_prefix_bare _ _ H)|congruence]. }
      apply tx_app; [exact Tp|]. apply tx_app; [exact Twi|]. apply tx_tc; [apply tx_w; const|exact Tmid].
    - split; [destruct (q_prefix b); [|discriminate]; destruct Swi as [-> | [r ->]]; discriminate|].
      intros n T Hn HT. rewrite !app_length in Hn. cbn [length] in Hn. destruct n as [|n]; [lia|].
      destruct (Gmid n T ltac:(lia) HT) as (r1 & r2 & r3 & r4 & r5 & r6 & r7 & r8 & r9 & r10 & E1 & E2 & E3 & E4
        & E5 & E6 & E7 & E8 & E9 & E10 & r11 & E11 & E12).
      cbn [p_query]. unfold p_body. rewrite <- !app_assoc. rewrite words_read.
      + cbn [app].
        rewrite (Gwi n) by lia. cbn [andthen strip]. change (String.eqb "SELECT" "SELECT") with true. cbn iota.
        rewrite E1. cbn [andthen]. rewrite E2. cbn [andthen]. rewrite E3. cbn [andthen]. rewrite E4. cbn [andthen].
        rewrite E5. cbn [andthen]. rewrite E6. cbn [andthen]. rewrite E7. cbn [andthen]. rewrite E8. cbn [andthen].
        rewrite E9. cbn [andthen]. rewrite E10. cbn [andthen]. rewrite E11. cbn [andthen]. rewrite E12.
        cbn [andthen]. destruct b; reflexivity.
      + pose proof (sb_prefix_stop _ _ H) as Hp. clear - Hp. induction (q_prefix b) as [|x l IH]; [reflexivity|].
        cbn [forallb] in *. apply andb_true_iff in Hp. destruct Hp as [Hp Hq].
        rewrite IH by exact Hq. unfold mem. cbn [existsb]. rewrite orb_false_r, Hp. reflexivity.
      + destruct Swi as [-> | [r ->]]; reflexivity.
    - destruct (q_prefix b) as [|x [|y l]]; cbn [map app].
      + destruct Swi as [-> | [r ->]]; cbn [app].
        * cbn [starts]. destruct mid as [|[] m]; reflexivity.
        * cbn [starts]. destruct (r ++ KWord "SELECT" :: mid)%list as [|[] m]; reflexivity.
      + destruct Swi as [-> | [r ->]]; reflexivity.
      + reflexivity.
  Qed.

  Lemma query_back_core : forall s b, sel_back s b -> finished s b -> query_back s b.
  Proof.
    intros s b H [N C]. destruct (core_reads s b H N) as (Ne & ts & T & G & S). split; [exact Ne|].
    exists ts. split; [|split; assumption]. change (write_expr (ESelect s)) with (write_select s).
    rewrite write_core by exact Ne. rewrite C. change (write_comment "") with eps. rewrite cat_eps_r. exact T.
  Qed.

  (* ----------------------------------------------------------------------- *)
  (* What the calls say                                                        *)
  (* ----------------------------------------------------------------------- *)

  Lemma concat_res_two : forall A (x : res (list A)) l a m, x = Ok a -> concat_res l = Ok m ->
    concat_res (x :: l) = Ok (a ++ m)%list.
  Proof. intros A x l a m -> H. rewrite concat_res_cons, H. reflexivity. Qed.

  Lemma split_back : forall x items, comma_items x items ->
    Forall (fun i => plain_name (trim_space i) = true) items ->
    split_columns x = Ok (map (fun i => lk_column (trim_space i)) items).
  Proof.
    intros x items H F. unfold split_columns. apply items_split in H. subst items.
    induction F as [|i l Hi F IH]; [reflexivity|]. cbn [map_res map]. unfold check_column at 1.
    cbn [c_name lk_column]. rewrite plain_name_nonempty by exact Hi. cbn [bind]. rewrite IH. reflexivity.
  Qed.

  Lemma columns_back : forall args ns, columns_say args ns -> exists cs,
    to_columns args = Ok cs /\ Forall2 (back write_column name_of any) cs ns.
  Proof.
    intros args ns H.
    enough (G : exists cs, concat_res (map to_columns1 args) = Ok cs /\ Forall2 (back write_column name_of any) cs ns).
    { destruct G as (cs & E & F). exists cs. split; [|exact F]. rewrite <- E.
      destruct H as [|? ? ? ? ? ? []|? ? ? ? []]; reflexivity. }
    induction H as [|x items rest ns C Hi H (cs & E & F)|x rest ns Hx H (cs & E & F)].
    - exists []. split; [reflexivity|constructor].
    - exists (map (fun i => lk_column (trim_space i)) items ++ cs)%list. split.
      + apply concat_res_two; [apply split_back; assumption|exact E].
      + apply Forall2_app; [|exact F]. clear - Hi. induction Hi as [|i l Hi _ IH]; constructor; [|exact IH].
        apply column_back, Hi.
    - exists (lk_column x :: cs). split.
      + change (lk_column x :: cs) with ([lk_column x] ++ cs)%list. apply concat_res_two; [|exact E].
        cbn [to_columns1]. unfold check_column. cbn [c_name lk_column].
        rewrite plain_name_nonempty by exact Hx. reflexivity.
      + constructor; [apply column_back, Hx|exact F].
  Qed.

  Lemma columns_args_back : forall args ns, columns_args args ns -> exists cs,
    to_columns args = Ok cs /\ Forall2 (back write_column name_of any) cs ns.
  Proof.
    intros args ns [args' ns' H|xs H|xs ns' H].
    - apply columns_back, H.
    - exists (map lk_column xs). cbn [to_columns]. split.
      + induction xs as [|x xs IH]; [reflexivity|]. cbn [forallb] in H. apply andb_true_iff in H. destruct H as [Hx H].
        cbn [map map_res]. unfold check_column at 1. cbn [c_name lk_column]. rewrite plain_name_nonempty by exact Hx.
        cbn [bind]. rewrite (IH H). reflexivity.
      + induction xs as [|x xs IH]; [constructor|]. cbn [forallb] in H. apply andb_true_iff in H. destruct H as [Hx H].
        constructor; [apply column_back, Hx|apply IH, H].
    - destruct (columns_back _ _ H) as (cs & E & F). exists cs. split; [|exact F]. rewrite <- E.
      cbn [to_columns]. rewrite <- (map_map GStr to_columns1). destruct xs as [|x [|y xs]]; reflexivity.
  Qed.

  Lemma from_back : forall args ts, Forall2 table_says args ts -> exists l,
    map_res to_fromitem args = Ok l /\ Forall2 (back write_fromitem table_of no_as) l ts.
  Proof.
    intros args ts F. induction F as [|g t args ts H F (l & E & G)].
    - exists []. split; [reflexivity|constructor].
    - destruct (table_says_back g t H) as (tb & Ef & _ & _ & B & _). exists (FTable tb :: l). split.
      + cbn [map_res]. rewrite Ef. cbn [bind]. rewrite E. reflexivity.
      + constructor; [exact B|exact G].
  Qed.

  Lemma chain_back : forall e rest, forallb plain_equality (e :: map snd rest) = true ->
    cond_back (JoinSpec.on_condition e rest) (chain_formula e rest).
  Proof.
    assert (EB : forall e, plain_equality e = true -> cond_back (JoinSpec.on_equality e) (equality_formula e)).
    { intros e H. unfold plain_equality in H. apply andb_true_iff in H. destruct H. apply on_back; assumption. }
    intros e rest H. cbn [forallb] in H. apply andb_true_iff in H. destruct H as [H1 H2].
    unfold JoinSpec.on_condition, chain_formula. apply EB in H1. revert H1.
    generalize (JoinSpec.on_equality e) (equality_formula e). revert H2.
    induction rest as [|[c e'] rest IH]; intros H2 x f H1; [exact H1|].
    cbn [map snd forallb] in H2. apply andb_true_iff in H2. destruct H2 as [H2 H3].
    cbn [fold_left fst snd]. apply IH; [exact H3|]. apply EB in H2.
    destruct c; [apply and_back; assumption|apply or_back; assumption].
  Qed.

  Lemma orders_back : forall os l, Forall2 order_says os l -> Forall2 (back write_order order_of any) os l.
  Proof. intros os l F. induction F as [|o x os l H F IH]; constructor; [apply order_back, H|exact IH]. Qed.

  Lemma handle_join_back : forall g t c f, table_says g t -> on_says c f -> exists tb,
    handle_join g (GExpr c) = Ok {| j_type := "INNER JOIN"; j_table := tb; j_cond := c |}
    /\ back write_table table_of no_as tb t.
  Proof.
    intros g t c f Hg Hc. destruct (table_says_back g t Hg) as (tb & _ & _ & _ & B & E). exists tb.
    split; [|exact B]. unfold handle_join.
    destruct Hg; subst tb; cbn [bind]; destruct Hc; reflexivity.
  Qed.

  Lemma add_join_back : forall q j s, add_join q j = Ok s -> s = with_joins q (s_joins q ++ [j])%list.
  Proof.
    intros q j s H. unfold add_join in H. destruct (join_empty j) as [[]|]; try discriminate. cbn [bind] in H.
    congruence.
  Qed.

  Lemma cmp_expr_back : forall l a o v e0 b e, left_back l a -> new_expression v = Ok e0 ->
    operand_back (if cmp_wraps o then new_wrapper e0 else e0) b -> cmp_expr l o v = Ok e ->
    cond_back e (FCmp a (sql_op o) b).
  Proof.
    intros l a o v e0 b e Hl E Ho H. apply (cmp_back l a o b e e0 Hl Ho).
    unfold cmp_expr, infix_wrapped, infix_plain in H. rewrite E in H. cbn [bind] in H.
    destruct (cmp_wraps o); congruence.
  Qed.

  Lemma in_values : forall (vs : list gval), vs <> [] -> vs <> [GNil] -> match vs with [] => false | [GNil] => false | _ => true end = true.
  Proof. intros [|v [|u vs]] N1 N2; [congruence| |destruct v; reflexivity]. destruct v; try reflexivity. congruence. Qed.

  Definition items_back (l : list selexpr) (xs : list item) : Prop :=
    Forall2 (back (write_selexpr write_expr) item_of no_as) l xs.

  Theorem calls_back :
    (forall e f, says e f -> cond_back e f)
    /\ (forall o v a, operand_says o v a -> exists e0, new_expression v = Ok e0
          /\ operand_back (if cmp_wraps o then new_wrapper e0 else e0) a)
    /\ (forall args l, items_say args l -> exists es, concat_res (map to_selexprs1 args) = Ok es /\ items_back es l)
    /\ (forall args l, args_say args l -> exists es, to_selexprs args = Ok es /\ items_back es l)
    /\ (forall ws l, withs_say ws l -> Forall2 (back (write_withq write_expr) with_of any) ws l)
    /\ (forall s b, sel_says s b -> sel_back s b).
  Proof.
    apply says_mutind.
    - (* cmp *) intros x o v a e Hx _ (e0 & E & B) H. eapply cmp_expr_back; [apply left_name, Hx|exact E|exact B|exact H].
    - (* is null *) intros x v e Hx H. unfold is_null in H.
      destruct v.
      + apply (cmp_expr_back _ (MName (parts_of x)) OpIs GNil (EValue GNil) MNull e (left_name x Hx) eq_refl (value_back GNil MNull shown_nil) H).
      + apply (cmp_expr_back _ (MName (parts_of x)) OpIsNot GNil (EValue GNil) MNull e (left_name x Hx) eq_refl (value_back GNil MNull shown_nil) H).
    - (* value *) intros u a0 o v a e Hu _ (e0 & E & B) H.
      eapply cmp_expr_back; [apply left_value, Hu|exact E|exact B|exact H].
    - (* in *) intros x vs l e Hx N1 N2 Hv F H. apply (in_back (EIdent (GStr x)) (MName (parts_of x)) false vs); [apply left_name, Hx|exact N1|exact F|].
      unfold expr_in in H. rewrite plain_array in H by (assumption || apply in_values; assumption).
      cbn [bind] in H. injection H as <-. reflexivity.
    - (* not in *) intros x vs l e Hx N1 N2 Hv F H. apply (in_back (EIdent (GStr x)) (MName (parts_of x)) true vs); [apply left_name, Hx|exact N1|exact F|].
      unfold expr_not_in in H. rewrite plain_array in H by (assumption || apply in_values; assumption).
      cbn [bind] in H. injection H as <-. reflexivity.
    - (* in sub *) intros x g s b e Hx Hs _ Hb Hf H. apply (in_sub_back (EIdent (GStr x)) (MName (parts_of x)) false s); [apply left_name, Hx|apply query_back_core; assumption|].
      destruct Hs; (injection H as H; symmetry; exact H).
    - intros x g s b e Hx Hs _ Hb Hf H. apply (in_sub_back (EIdent (GStr x)) (MName (parts_of x)) true s); [apply left_name, Hx|apply query_back_core; assumption|].
      destruct Hs; (injection H as H; symmetry; exact H).
    - (* between *) intros x u v a b e Hx Hu Hv H.
      destruct (says_scalar u a Hu) as (u' & Eu & Su & _). destruct (says_scalar v b Hv) as (v' & Ev & Sv & _).
      apply (between_back x false u' v'); [exact Hx|exact Su|exact Sv|]. unfold ident_between in H. rewrite Eu, Ev in H. cbn in H. congruence.
    - intros x u v a b e Hx Hu Hv H.
      destruct (says_scalar u a Hu) as (u' & Eu & Su & _). destruct (says_scalar v b Hv) as (v' & Ev & Sv & _).
      apply (between_back x true u' v'); [exact Hx|exact Su|exact Sv|]. unfold ident_not_between in H. rewrite Eu, Ev in H. cbn in H. congruence.
    - (* exists *) intros g s b e Hs _ Hb Hf H. unfold lk_exists in H. rewrite (sub_new _ _ Hs) in H. cbn [bind] in H.
      injection H as <-. apply exists_back, query_back_core; assumption.
    - intros g s b e Hs _ Hb Hf H. unfold lk_not_exists in H. rewrite (sub_new _ _ Hs) in H. cbn [bind] in H.
      injection H as <-. apply exists_back, query_back_core; assumption.
    - (* and, or *) intros l r f g _ Hl _ Hr. apply and_back; assumption.
    - intros l r f g _ Hl _ Hr. apply or_back; assumption.
    - intros l r f g _ Hl _ Hr. apply and_back; [assumption|apply wrapped_back; assumption].
    - intros l r f g _ Hl _ Hr. apply or_back; [assumption|apply wrapped_back; assumption].
    - (* on *) apply on_says_back.
    - (* calls *) intros c t o v a e Hc _ _ (e0 & E & B) H. eapply cmp_expr_back; [apply call_back, Hc|exact E|exact B|exact H].
    - intros c t vs l e Hc N1 N2 Hv F H. apply (in_back c t false vs); [apply call_back, Hc|exact N1|exact F|].
      unfold expr_in in H. rewrite plain_array in H by (assumption || apply in_values; assumption).
      cbn [bind] in H. injection H as <-. reflexivity.
    - intros c t g s b e Hc Hs _ Hb Hf H. apply (in_sub_back c t false s); [apply call_back, Hc|apply query_back_core; assumption|].
      destruct Hs; (injection H as H; symmetry; exact H).
    - (* operands *) intros o v a H. destruct (says_scalar v a H) as (u & E & S & W). exists u.
      split; [exact E|]. rewrite W. destruct (cmp_wraps o); apply scalar_operand, S.
    - intros o x Hx. exists (EIdent (GStr x)). split; [reflexivity|]. destruct (cmp_wraps o); apply name_operand, Hx.
    - intros o g s b Ho Hs _ Hb Hf. exists (ESelect s). split; [apply sub_new, Hs|].
      replace (cmp_wraps o) with true by (destruct o; try discriminate; reflexivity).
      apply sub_term, query_back_core; assumption.
    - (* items *) exists []. split; [reflexivity|constructor].
    - intros x items rest l C Hi _ (es & E & F).
      exists (map (fun i => SColumn (lk_column (trim_space i))) items ++ es)%list. split.
      + apply concat_res_two; [|exact E]. cbn [to_selexprs1 as_selexpr].
        rewrite (split_back x items C Hi). cbn [bind]. rewrite map_map. reflexivity.
      + apply Forall2_app; [|exact F]. clear - Hi. induction Hi as [|i l Hi _ IH]; constructor; [|exact IH].
        apply (item_column_back (lk_column (trim_space i))); [exact Hi|reflexivity].
    - intros c n a rest l Hc _ (es & E & F). destruct (column_raw _ _ _ Hc) as (Hn & Ha & -> & ->).
      exists (SColumn c :: es). split.
      + change (SColumn c :: es) with ([SColumn c] ++ es)%list. apply concat_res_two; [|exact E].
        unfold to_selexprs1. cbn [as_selexpr selexpr_empty]. rewrite plain_name_nonempty by exact Hn. reflexivity.
      + constructor; [apply item_column_back; assumption|exact F].
    - intros e f d x a rest l He _ (es & E & F). destruct (agg_raw _ _ _ _ _ He) as (-> & Hf & Hx & Ha).
      exists (SAgg f x d a :: es). split.
      + change (SAgg f x d a :: es) with ([SAgg f x d a] ++ es)%list. apply concat_res_two; [|exact E].
        unfold to_selexprs1. cbn [as_selexpr selexpr_empty]. destruct x; [discriminate|reflexivity].
      + constructor; [apply item_agg_back; assumption|exact F].
    - intros s f d x a rest l He _ (es & E & F). exists (SRaw s :: es). split.
      + change (SRaw s :: es) with ([SRaw s] ++ es)%list. apply concat_res_two; [|exact E].
        unfold to_selexprs1. cbn [as_selexpr selexpr_empty]. destruct He as [f d x a Hf _ _].
        destruct Hf as [<- | [<- | [<- | [<- | []]]]]; reflexivity.
      + constructor; [apply item_raw_back, He|exact F].
    - intros g s b e rest l Hs _ Hb Hf H _ (es & E & F). unfold lk_exists in H. rewrite (sub_new _ _ Hs) in H.
      cbn [bind] in H. injection H as <-. exists (SExists (ESelect s) :: es). split.
      + change (SExists (ESelect s) :: es) with ([SExists (ESelect s)] ++ es)%list. apply concat_res_two; [reflexivity|exact E].
      + constructor; [apply item_exists_back, query_back_core; assumption|exact F].
    - intros g s b e rest l Hs _ Hb Hf H _ (es & E & F). unfold lk_not_exists in H. rewrite (sub_new _ _ Hs) in H.
      cbn [bind] in H. injection H as <-. exists (SNotExists (ESelect s) :: es). split.
      + change (SNotExists (ESelect s) :: es) with ([SNotExists (ESelect s)] ++ es)%list. apply concat_res_two; [reflexivity|exact E].
      + constructor; [apply item_exists_back, query_back_core; assumption|exact F].
    - (* arguments *) intros args l H0 (es & E & F). exists es. split; [|exact F]. rewrite <- E.
      destruct H0 as [|? ? ? ? ? ? []|? ? ? ? ? ? []|? ? ? ? ? ? ? ? []|? ? ? ? ? ? ? ? []|? ? ? ? ? ? ? ? ? ? []|? ? ? ? ? ? ? ? ? ? []];
          reflexivity.
    - intros cs l F. exists (map SColumn cs). cbn [to_selexprs]. split.
      + enough (X : map_res check_column cs = Ok cs) by (rewrite X; reflexivity).
        induction F as [|c i cs l (n & a & Hc & ->) F IH]; [reflexivity|]. destruct (column_raw _ _ _ Hc) as (Hn & _).
        cbn [map_res]. unfold check_column at 1. rewrite plain_name_nonempty by exact Hn. cbn [bind]. rewrite IH. reflexivity.
      + induction F as [|c i cs l (n & a & Hc & ->) F IH]; constructor; [|exact IH].
        destruct (column_raw _ _ _ Hc) as (Hn & Ha & -> & ->). apply item_column_back; assumption.
    - intros xs H. exists (map (fun x => SColumn (lk_column x)) xs). split; [reflexivity|].
      induction xs as [|x xs IH]; [constructor|]. cbn [forallb] in H. apply andb_true_iff in H. destruct H as [Hx H].
      constructor; [apply (item_column_back (lk_column x)); [exact Hx|reflexivity]|apply IH, H].
    - intros es l F. exists es. split; [reflexivity|].
      induction F as [|e i es l [(c & -> & n & a & Hc & ->)|(f & d & x & a & He & ->)] F IH]; constructor; try exact IH.
      + destruct (column_raw _ _ _ Hc) as (Hn & Ha & -> & ->). apply item_column_back; assumption.
      + destruct (agg_raw _ _ _ _ _ He) as (-> & Hf & Hx & Ha). apply item_agg_back; assumption.
    - (* with *) constructor.
    - intros x g s b w0 rest l Hx Hs _ Hb Hf H _ F. unfold lk_with in H. rewrite (sub_new _ _ Hs) in H. cbn [bind] in H.
      injection H as <-. constructor; [apply with_back; [exact Hx|apply query_back_core; assumption]|exact F].
    - (* builders *) constructor; try reflexivity; try constructor; reflexivity || lia.
    - (* columns *) intros s b args l s' _ Hb N _ (es & E & F) H. cbn [sel_step] in H.
      destruct args as [|g args]; [congruence|]. rewrite E in H. cbn [bind] in H. injection H as <-.
      destruct Hb; constructor; try assumption.
    - (* distinct *) intros s b s' _ Hb H. injection H as <-. destruct Hb; constructor; try assumption. reflexivity.
    - (* distinct on *) intros s b args ns s' _ Hb C H. destruct (columns_args_back args ns C) as (cs & E & F).
      cbn [sel_step] in H. destruct (nonempty (s_group_by s)); [discriminate|]. rewrite E in H. cbn [bind] in H.
      destruct (nonempty cs); [|discriminate]. injection H as <-. destruct Hb; constructor; try assumption.
    - (* from *) intros s b args ts s' _ Hb C H. destruct (from_back args ts C) as (l & E & F).
      cbn [sel_step] in H. destruct (nonempty (s_from s)); [discriminate|]. unfold to_from in H. rewrite E in H.
      cbn [bind] in H. destruct (nonempty l); [|discriminate]. injection H as <-. destruct Hb; constructor; try assumption.
    - (* join *) intros s b g t c f s' _ Hb Ht Hc H. destruct (handle_join_back g t c f Ht Hc) as (tb & E & B).
      cbn [sel_step sel_join] in H. rewrite E in H. cbn [bind] in H. apply add_join_back in H. subst s'.
      destruct Hb; constructor; try assumption. apply Forall2_app; [assumption|]. constructor; [|constructor].
      split; [reflexivity|]. split; [left; reflexivity|]. split; [exact B|apply on_says_back, Hc].
    - intros s b g t c f kw s' _ Hb Ht Hc Hk H. destruct (handle_join_back g t c f Ht Hc) as (tb & E & B).
      cbn [sel_step sel_join] in H. rewrite E in H. cbn [bind] in H. apply add_join_back in H. subst s'.
      destruct Hb; constructor; try assumption. apply Forall2_app; [assumption|]. constructor; [|constructor].
      split; [reflexivity|]. split; [exact Hk|]. split; [exact B|apply on_says_back, Hc].
    - intros s b ls txt kw t e rest s' _ Hb Hk Hw Hl Ht He H.
      rewrite (PropsJoin.C32_select_join ls txt (spaced kw) t e rest s Hw Hl) in H. injection H as <-.
      destruct Hb; constructor; try assumption. apply Forall2_app; [assumption|]. constructor; [|constructor].
      split; [reflexivity|]. split; [exact Hk|]. split; [|apply chain_back, He].
      apply (table_back (lk_table t)); [exact Ht|reflexivity].
    - (* with *) intros s b ws l s' _ Hb _ F H. cbn [sel_step] in H. injection H as <-. destruct Hb; constructor; try assumption.
      cbn [s_with with_with q_with set_with]. replace (if nonempty (s_with s) then s_with s ++ ws else ws)%list with (s_with s ++ ws)%list
        by (destruct (s_with s); reflexivity).
      apply Forall2_app; assumption.
    - (* where *) intros s b e f s' _ Hb _ C H. cbn [sel_step] in H. destruct (is_nil e); [discriminate|].
      pose proof (sb_where _ _ Hb) as W. unfold where_where, where_and in H.
      destruct (q_where b) as [g|] eqn:Eq; cbn [opt_back] in W.
      + rewrite (cond_empty_back _ _ W) in H. cbn [bind] in H. injection H as <-.
        destruct Hb; constructor; try assumption. cbn [s_where with_where q_where set_where opt_and opt_back].
        apply and_back; [exact W|apply wrapped_back, C].
      + rewrite W in H. cbn [cond_empty is_nil bind] in H. injection H as <-.
        destruct Hb; constructor; try assumption. cbn [s_where with_where q_where set_where opt_and opt_back].
        apply wrapped_back, C.
    - intros s b e f g s' _ Hb _ C Eq H. cbn [sel_step] in H. destruct (is_nil e); [discriminate|].
      pose proof (sb_where _ _ Hb) as W. rewrite Eq in W. cbn [opt_back] in W. unfold where_and in H.
      rewrite (cond_empty_back _ _ W) in H. cbn [bind] in H. injection H as <-.
      destruct Hb; constructor; try assumption. apply and_back; [exact W|apply wrapped_back, C].
    - intros s b e f g s' _ Hb _ C Eq H. cbn [sel_step] in H.
      pose proof (sb_where _ _ Hb) as W. rewrite Eq in W. cbn [opt_back] in W. unfold where_or in H.
      rewrite (cond_empty_back _ _ W) in H. cbn [bind] in H. injection H as <-.
      destruct Hb; constructor; try assumption. apply or_back; [exact W|apply wrapped_back, C].
    - (* group by *) intros s b args ns s' _ Hb C H. destruct (columns_args_back args ns C) as (cs & E & F).
      cbn [sel_step] in H. destruct (nonempty (s_group_by s)); [discriminate|]. rewrite E in H. cbn [bind] in H.
      destruct (nonempty cs); [|discriminate]. injection H as <-. destruct Hb; constructor; try assumption.
    - (* having *) intros s b e f s' _ Hb _ C H. cbn [sel_step] in H.
      destruct (cond_empty (s_having s)) as [[]|]; try discriminate. cbn [bind] in H. injection H as <-.
      destruct Hb; constructor; try assumption.
    - (* order by *) intros s b os l s' _ Hb Ho H. cbn [sel_step] in H. injection H as <-.
      destruct Hb; constructor; try assumption. apply Forall2_app; [assumption|apply orders_back, Ho].
    - (* limit *) intros s b g z s' _ Hb Ty Ng Hz H. cbn [sel_step] in H.
      destruct (s_limit s =? 0)%Z; [|discriminate]. destruct (to_limit g) as [z'|] eqn:E; [|discriminate].
      cbn [bind] in H. injection H as <-.
      assert (z' = z /\ (0 <= z)%Z) as [-> Hp].
      { unfold to_limit in E. destruct g; try (exfalso; eapply Ng; reflexivity);
          try discriminate; destruct (to_int64 _) as [y|] eqn:Ey; try discriminate;
          apply (to_int64_spec _ _ Ty) in Ey; destruct Ey as [Ey _]; rewrite Ey in Hz; injection Hz as <-;
          destruct (y <=? 0)%Z eqn:Ez; try discriminate; injection E as <-; lia. }
      destruct Hb; constructor; try assumption. reflexivity.
    - (* offset *) intros s b g z s' _ Hb Ty Ng Hz H. cbn [sel_step] in H.
      destruct (s_offset s =? 0)%Z; [|discriminate]. destruct (to_offset g) as [z'|] eqn:E; [|discriminate].
      cbn [bind] in H. injection H as <-.
      assert (z' = z /\ (0 <= z)%Z) as [-> Hp].
      { unfold to_offset in E. destruct g; try (exfalso; eapply Ng; reflexivity);
          try discriminate; destruct (to_int64 _) as [y|] eqn:Ey; try discriminate;
          apply (to_int64_spec _ _ Ty) in Ey; destruct Ey as [Ey _]; rewrite Ey in Hz; injection Hz as <-;
          destruct (y <? 0)%Z eqn:Ez; try discriminate; injection E as <-; lia. }
      destruct Hb; constructor; try assumption. reflexivity.
    - (* suffix *) intros s b ws s' _ Hb Hw Hh H. cbn [sel_step] in H. destruct (s_offset s =? 0)%Z; [|discriminate].
      unfold to_suffix in H. cbn [bind] in H. destruct (no_str (spaced ws)); [discriminate|]. cbn [bind] in H.
      injection H as <-. destruct Hb; constructor; try assumption. reflexivity.
    - (* prefix *) intros s b ws s' _ Hb Hw Hh H. cbn [sel_step] in H. destruct (s_offset s =? 0)%Z; [|discriminate].
      unfold to_prefix in H. cbn [bind] in H. destruct (no_str (spaced ws)); [discriminate|]. cbn [bind] in H.
      injection H as <-. destruct Hb; constructor; try assumption. reflexivity.
    - (* comment *) intros s b c s' _ Hb Hc H. cbn [sel_step] in H. injection H as <-.
      destruct Hb; constructor; try assumption.
  Qed.
End Body.
