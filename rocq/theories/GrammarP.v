(* Proofs for C49: rendered Select statements read back. *)
From Verif Require Export GrammarLexP ConvP.
From Verif Require JoinP PropsJoin.

(* ------------------------------------------------------------------------- *)
(* Tokens of what is written                                                   *)
(* ------------------------------------------------------------------------- *)

Section Tokens.
Context {O : Oracle} {sty : style}.

(* What t writes has the tokens ts. *)
Definition tx (sharp : bool) (t : tr) (ts : list lexeme) : Prop :=
  exists q, flat t = Ok q /\ lexes sharp q ts.

(* The same, for something that is empty or starts by ending the token before it. *)
Definition tc (t : tr) (ts : list lexeme) : Prop :=
  exists q, flat t = Ok q /\ lexes false q ts /\ ends_token q = true.

Lemma flat_ok : forall a b x y, flat a = Ok x -> flat b = Ok y -> flat (a +++ b) = Ok (x ++ y)%list.
Proof. intros a b x y Ha Hb. rewrite flat_cat, Ha, Hb. reflexivity. Qed.

Lemma tx_w : forall h s ts, const_lexes h s ts -> tx h (w s) ts.
Proof. intros h s ts H. exists (lit s). split; [apply flat_w|apply lexes_lit, H]. Qed.

Lemma tx_eps : tx true eps [].
Proof. exists []. split; [reflexivity|apply lexes_nil]. Qed.

Lemma tx_weak : forall h t ts, tx h t ts -> tx false t ts.
Proof. intros h t ts (q & F & H). exists q. split; [exact F|eapply lexes_soft, H]. Qed.

Lemma tx_app : forall h a b ta tb, tx true a ta -> tx h b tb -> tx h (a +++ b) (ta ++ tb)%list.
Proof.
  intros h a b ta tb (q & F & H) (r & G & K). exists (q ++ r)%list.
  split; [apply flat_ok; assumption|apply lexes_sharp_app; assumption].
Qed.

(* A constant that starts with an ender. *)
Lemma tx_const : forall h a s ta ts, tx false a ta -> const_lexes h s ts -> s <> "" ->
  ends_token (lit s) = true -> tx h (a +++ w s) (ta ++ ts)%list.
Proof.
  intros h a s ta ts (q & F & H) C N E. exists (q ++ lit s)%list.
  split; [apply flat_ok; [exact F|apply flat_w]|].
  apply lexes_soft_app; [exact H|apply lexes_lit, C|exact E|destruct s; [congruence|discriminate]].
Qed.

Lemma tx_tc : forall a b ta tb, tx false a ta -> tc b tb -> tx false (a +++ b) (ta ++ tb)%list.
Proof.
  intros a b ta tb (q & F & H) (r & G & K & E). exists (q ++ r)%list.
  split; [apply flat_ok; assumption|apply lexes_app; assumption].
Qed.

Lemma tc_tx : forall t ts, tc t ts -> tx false t ts.
Proof. intros t ts (q & F & H & _). exists q. split; assumption. Qed.

Lemma tc_eps : tc eps [].
Proof. exists []. split; [reflexivity|]. split; [eapply lexes_soft, lexes_nil|reflexivity]. Qed.

Lemma tc_app : forall a b ta tb, tc a ta -> tc b tb -> tc (a +++ b) (ta ++ tb)%list.
Proof.
  intros a b ta tb (q & F & H & E) (r & G & K & E'). exists (q ++ r)%list.
  split; [apply flat_ok; assumption|]. split; [apply lexes_app; assumption|].
  destruct q as [|p q]; [exact E'|exact E].
Qed.

(* A space and something. *)
Lemma tc_w : forall s ts, const_lexes false s ts -> ends_token (lit s) = true -> tc (w s) ts.
Proof.
  intros s ts C E. exists (lit s). split; [apply flat_w|]. split; [apply lexes_lit, C|exact E].
Qed.
Lemma tc_lead : forall s b ts tb, const_lexes true s ts -> s <> "" -> ends_token (lit s) = true -> tx false b tb ->
  tc (w s +++ b) (ts ++ tb)%list.
Proof.
  intros s b ts tb C N E (r & G & K). exists (lit s ++ r)%list.
  split; [apply flat_ok; [apply flat_w|exact G]|].
  split; [apply lexes_sharp_app; [apply lexes_lit, C|exact K]|].
  destruct s as [|a s]; [congruence|exact E].
Qed.

End Tokens.

Lemma cat_assoc : forall a b c : tr, (a +++ b) +++ c = a +++ (b +++ c).
Proof. intros [a|p] [b|q] [c|r]; cbn; try reflexivity. rewrite <- app_assoc. reflexivity. Qed.
Lemma cat_eps_l : forall a : tr, eps +++ a = a.
Proof. intros [a|p]; reflexivity. Qed.
Lemma cat_eps_r : forall a : tr, a +++ eps = a.
Proof. intros [a|p]; cbn; [rewrite app_nil_r|]; reflexivity. Qed.

Ltac const :=
  let A := fresh "A" in
  intro A; eexists _, _, _; split; [vm_compute; reflexivity|];
  split; [vm_compute; reflexivity|]; split; [vm_compute; reflexivity|first [reflexivity|discriminate]].

(* ------------------------------------------------------------------------- *)
(* Reading back                                                                *)
(* ------------------------------------------------------------------------- *)

(* The parser p, given n to bound the nesting of subqueries, reads x from ts. *)
Definition gives {A} (p : nat -> parser A) (ok : list lexeme -> bool) (x : A) (ts : list lexeme) : Prop :=
  ts <> [] /\ forall n rest, length ts <= n -> ok rest = true -> p n (ts ++ rest)%list = Some (x, rest).

Definition any (_ : list lexeme) : bool := true.
(* not followed by AS *)
Definition no_as (ts : list lexeme) : bool :=
  match ts with KWord x :: _ => negb (String.eqb x "AS") | _ => true end.
Definition no_comma (ts : list lexeme) : bool := match ts with KComma :: _ => false | _ => true end.
(* not followed by AND or OR *)
Definition no_link (ts : list lexeme) : bool :=
  match ts with KWord x :: _ => negb (String.eqb x "AND" || String.eqb x "OR") | _ => true end.
(* the end of a statement *)
Definition stop (ts : list lexeme) : bool :=
  match ts with [] | KClose :: _ | KSemi :: _ => true | _ => false end.

Section Written.
Context {O : Oracle} {sty : style}.

(* x is read from what wr writes for e. *)
Definition back {E A} (wr : E -> tr) (p : nat -> parser A) (ok : list lexeme -> bool) (e : E) (x : A) : Prop :=
  exists ts, tx false (wr e) ts /\ gives p ok x ts.

Lemma read_parens : forall A (p : nat -> parser A) ok x ts n rest, gives p ok x ts ->
  length ts <= n -> ok (KClose :: rest) = true ->
  p_parens (p n) (KOpen :: ts ++ KClose :: rest)%list = Some (x, rest).
Proof.
  intros A p ok x ts n rest (_ & G) Hn Ho. unfold p_parens. rewrite G by assumption. reflexivity.
Qed.

Lemma map_sep : forall E (wr : E -> tr) e e' es,
  sep_by ", " (map wr (e :: e' :: es)) = wr e +++ w ", " +++ sep_by ", " (map wr (e' :: es)).
Proof. reflexivity. Qed.

Lemma commas_back : forall E A (wr : E -> tr) (p : nat -> parser A) ok es xs,
  (forall r, ok (KComma :: r) = true) -> es <> [] -> Forall2 (back wr p ok) es xs ->
  exists ts, tx false (sep_by ", " (map wr es)) ts
    /\ gives (fun n => p_commas (p n)) (fun r => ok r && no_comma r) xs ts.
Proof.
  intros E A wr p ok es xs Hok N F.
  enough (G : exists ts, tx false (sep_by ", " (map wr es)) ts /\ ts <> [] /\ length xs <= length ts
    /\ forall n m rest, length ts <= n -> length xs <= m -> ok rest = true -> no_comma rest = true ->
       commas_fuel m (p n) (ts ++ rest)%list = Some (xs, rest)).
  { destruct G as (ts & H1 & H2 & H3 & H4). exists ts. split; [exact H1|]. split; [exact H2|].
    intros n rest Hn Hr. apply andb_true_iff in Hr. destruct Hr as [Hr1 Hr2]. unfold p_commas.
    apply H4; try assumption. rewrite app_length. lia. }
  induction F as [|e x es xs (ts & T & Nt & G) F IH]; [congruence|].
  destruct F as [|e' x' es xs F1 F].
  - exists ts. split; [exact T|]. split; [exact Nt|]. split; [destruct ts; [congruence|cbn; lia]|].
    intros n m rest Hn Hm Hr Hc. destruct m as [|m]; [cbn in Hm; lia|]. cbn [commas_fuel].
    rewrite G by assumption. cbn [andthen]. destruct rest as [|[] rest]; try reflexivity. discriminate.
  - destruct IH as (ts' & T' & Nt' & L' & G'); [discriminate|].
    exists ((ts ++ [KComma]) ++ ts')%list. rewrite map_sep.
    split; [apply tx_app; [apply tx_const; [exact T|const|discriminate|reflexivity]|exact T']|].
    split; [destruct ts; discriminate|].
    split; [rewrite !app_length; cbn [length] in *; lia|].
    intros n m rest Hn Hm Hr Hc. destruct m as [|m]; [cbn in Hm; lia|]. cbn [commas_fuel].
    rewrite !app_length in Hn. cbn [length] in Hn, Hm.
    rewrite <- !app_assoc. cbn [app]. rewrite G by (lia || apply Hok). cbn [andthen].
    rewrite G' by (assumption || lia || (cbn [length]; lia)). reflexivity.
Qed.

(* ------------------------------------------------------------------------- *)
(* Conditions                                                                  *)
(* ------------------------------------------------------------------------- *)

Definition prim (n : nat) : parser formula :=
  fun ts => p_formula (p_query n) (4 * length ts) Prim ts.

(* Read as an operand of AND and OR. *)
Definition reads_prim (f : formula) (ts : list lexeme) : Prop :=
  ts <> [] /\ forall n m rest, length ts <= n -> 4 * length ts <= m ->
    p_formula (p_query n) m Prim (ts ++ rest)%list = Some (f, rest).

Lemma strip_not : forall x rest, no_link rest = true -> In x ["AND"; "OR"] -> strip [x] rest = None.
Proof.
  intros x rest H Hx. destruct rest as [|t rest]; [reflexivity|]. destruct t; try reflexivity. cbn in *.
  apply negb_true_iff, orb_false_iff in H. destruct H as [H1 H2].
  destruct Hx as [<- | [<- | []]]; [rewrite String.eqb_sym, H1|rewrite String.eqb_sym, H2]; reflexivity.
Qed.

Lemma formula_S : forall pq m k ts, p_formula pq (S m) k ts =
  match k with
  | Prim => match ts with
            | KOpen :: r => read f r1 from p_formula pq m Loose r; p_close f r1
            | _ => Grammar.p_atom pq ts
            end
  | _ => read f r from p_formula pq m (below k) ts; p_links pq m k f r
  end.
Proof. reflexivity. Qed.
Lemma links_S : forall pq m k acc ts, p_links pq (S m) k acc ts =
  match strip [link k] ts with
  | Some r => read f r1 from p_formula pq m (below k) r; p_links pq m k (joined k acc f) r1
  | None => Some (acc, ts)
  end.
Proof. reflexivity. Qed.

Lemma links_end : forall pq m k f rest, no_link rest = true -> 0 < m ->
  p_links pq m k f rest = Some (f, rest).
Proof.
  intros pq [|m] k f rest H Hm; [lia|]. rewrite links_S.
  rewrite strip_not; [reflexivity|exact H|]. destruct k; cbn; tauto.
Qed.

Lemma loose_prim : forall f ts n m rest, reads_prim f ts -> length ts <= n -> 4 * length ts + 2 <= m ->
  no_link rest = true -> p_formula (p_query n) m Loose (ts ++ rest)%list = Some (f, rest).
Proof.
  intros f ts n m rest (N & G) Hn Hm Hr.
  assert (L : 0 < length ts) by (destruct ts; [congruence|cbn; lia]).
  destruct m as [|[|m]]; try lia. rewrite !formula_S. cbn [below]. rewrite G by lia. cbn [andthen].
  rewrite links_end by (assumption || lia). cbn [andthen]. apply links_end; [exact Hr|lia].
Qed.

Lemma cond_prim : forall f ts n rest, reads_prim f ts -> length ts <= n -> no_link rest = true ->
  Grammar.p_cond (p_query n) (ts ++ rest)%list = Some (f, rest).
Proof.
  intros f ts n rest G Hn Hr. unfold Grammar.p_cond. apply loose_prim; try assumption. rewrite app_length. lia.
Qed.

Lemma prim_parens : forall f ts, reads_prim f ts -> reads_prim f (KOpen :: ts ++ [KClose])%list.
Proof.
  intros f ts G. split; [discriminate|]. intros n m rest Hn Hm. cbn [length] in Hn, Hm.
  rewrite app_length in Hn, Hm. cbn [length] in Hn, Hm.
  destruct m as [|m]; [lia|]. rewrite formula_S. cbn [app]. rewrite <- app_assoc. cbn [app].
  rewrite loose_prim with (f := f) by (assumption || reflexivity || lia). reflexivity.
Qed.

(* A condition that is not parenthesised. *)
Lemma prim_atom : forall f ts, ts <> [] -> hd KClose ts <> KOpen ->
  (forall n rest, length ts <= n -> Grammar.p_atom (p_query n) (ts ++ rest)%list = Some (f, rest)) ->
  reads_prim f ts.
Proof.
  intros f ts N H G. split; [exact N|]. intros n m rest Hn Hm.
  assert (L : 0 < length ts) by (destruct ts; [congruence|cbn; lia]).
  destruct m as [|m]; [lia|]. rewrite formula_S, G by exact Hn.
  destruct ts as [|[] ts]; cbn in H |- *; reflexivity || congruence.
Qed.

Lemma prim_and : forall f g tf tg, reads_prim f tf -> reads_prim g tg ->
  reads_prim (FAnd f g) (KOpen :: tf ++ KWord "AND" :: tg ++ [KClose])%list.
Proof.
  intros f g tf tg (Nf & F) (Ng & G). split; [discriminate|]. intros n m rest Hn Hm.
  assert (Lf : 0 < length tf) by (destruct tf; [congruence|cbn; lia]).
  assert (Lg : 0 < length tg) by (destruct tg; [congruence|cbn; lia]).
  repeat (cbn [length] in Hn, Hm; rewrite app_length in Hn, Hm). cbn [length] in Hn, Hm.
  do 4 (destruct m as [|m]; [lia|]). rewrite formula_S. cbn [app]. rewrite <- app_assoc. cbn [app].
  rewrite formula_S. cbn [below]. rewrite formula_S. cbn [below]. rewrite F by lia. cbn [andthen].
  rewrite links_S. cbn [link strip]. change (String.eqb "AND" "AND") with true. cbn iota.
  rewrite <- app_assoc. rewrite G by lia. cbn [andthen app].
  rewrite !links_end by (reflexivity || lia). cbn [andthen].
  rewrite links_end by (reflexivity || lia). reflexivity.
Qed.

Lemma prim_or : forall f g tf tg, reads_prim f tf -> reads_prim g tg ->
  reads_prim (FOr f g) (KOpen :: tf ++ KWord "OR" :: tg ++ [KClose])%list.
Proof.
  intros f g tf tg (Nf & F) (Ng & G). split; [discriminate|]. intros n m rest Hn Hm.
  assert (Lf : 0 < length tf) by (destruct tf; [congruence|cbn; lia]).
  assert (Lg : 0 < length tg) by (destruct tg; [congruence|cbn; lia]).
  repeat (cbn [length] in Hn, Hm; rewrite app_length in Hn, Hm). cbn [length] in Hn, Hm.
  do 5 (destruct m as [|m]; [lia|]). rewrite formula_S. cbn [app]. rewrite <- app_assoc. cbn [app].
  rewrite formula_S. cbn [below]. rewrite formula_S. cbn [below]. rewrite F by lia. cbn [andthen].
  rewrite links_S. cbn [link strip]. change (String.eqb "AND" "OR") with false. cbn iota.
  cbn [andthen]. rewrite links_S. cbn [link strip]. change (String.eqb "OR" "OR") with true. cbn iota.
  rewrite formula_S. cbn [below].
  rewrite <- app_assoc. rewrite G by lia. cbn [andthen app].
  rewrite !links_end by (reflexivity || lia). cbn [andthen].
  rewrite links_end by (reflexivity || lia). reflexivity.
Qed.

(* ------------------------------------------------------------------------- *)
(* What conditions write                                                       *)
(* ------------------------------------------------------------------------- *)

Definition term_of (n : nat) : parser term := p_term (p_query n).

(* The words that are values or start one. *)
Definition value_word (x : string) : bool := existsb (String.eqb x) ["NULL"; "true"; "false"; "decode"].

(* The first token of an operand. *)
Definition term_head (ts : list lexeme) : bool :=
  match ts with
  | KVal _ :: _ | KOpen :: _ | KName _ :: _ | KNum _ :: _ | KOp _ :: _ => true
  | KWord x :: r =>
    value_word x || column_word x
    || match r with KOpen :: _ => negb (existsb (String.eqb x) not_functions) | _ => false end
  | _ => false
  end.

(* A query starts with SELECT, WITH or a prefix, and does not look like a list of values. *)
Definition starts (ts : list lexeme) : bool :=
  match ts with
  | KWord _ :: KWord _ :: _ => true
  | KWord x :: _ => existsb (String.eqb x) ["SELECT"; "WITH"]
  | _ => false
  end.

  Definition cond_back (e : expr) (f : formula) : Prop :=
    is_nil e = false /\ is_empty e = Ok false
    /\ exists ts, tx false (write_expr e) ts /\ reads_prim f ts.

  Definition operand_back (e : expr) (a : term) : Prop :=
    is_nil e = false /\ is_empty e = Ok false
    /\ exists ts, tx false (write_expr e) ts /\ gives term_of any a ts /\ term_head ts = true.

  Definition query_back (s : select) (b : body) : Prop :=
    nonempty (s_exprs s) = true
    /\ exists ts, tx false (write_expr (ESelect s)) ts /\ gives p_query stop (Query b) ts /\ starts ts = true.

  (* In parentheses. *)
  Lemma tx_parens : forall t ts, tx false t ts -> tx false (w "(" +++ t +++ w ")") (KOpen :: ts ++ [KClose])%list.
  Proof.
    intros t ts H. change (KOpen :: ts ++ [KClose])%list with (([KOpen] ++ ts) ++ [KClose])%list.
    apply tx_const; [|const|discriminate|reflexivity].
    apply tx_app; [apply tx_w; const|exact H].
  Qed.

  Lemma wrap_back : forall e f, cond_back e f -> cond_back (EWrap e) f.
  Proof.
    intros e f (N & E & ts & T & G). split; [reflexivity|]. split; [exact E|].
    exists (KOpen :: ts ++ [KClose])%list. split; [apply tx_parens, T|apply prim_parens, G].
  Qed.
  Lemma wrapped_back : forall e f, cond_back e f -> cond_back (new_wrapper e) f.
  Proof. intros e f H. destruct e; try exact H; apply wrap_back, H. Qed.

  Lemma defined_ok : forall e t, is_empty e = Ok false -> defined e t = t.
  Proof. intros e t H. unfold defined. rewrite H. reflexivity. Qed.

  (* ( l op r ) *)
  Lemma tx_infix : forall a b s ta tb ts, tx false a ta -> tx false b tb -> const_lexes true s ts ->
    s <> "" -> ends_token (lit s) = true ->
    tx false (w "(" +++ a +++ w s +++ b +++ w ")") (KOpen :: ta ++ ts ++ tb ++ [KClose])%list.
  Proof.
    intros a b s ta tb ts Ha Hb Hs N E.
    replace (KOpen :: ta ++ ts ++ tb ++ [KClose])%list with (((([KOpen] ++ ta) ++ ts) ++ tb) ++ [KClose])%list
      by (rewrite <- !app_assoc; reflexivity).
    apply tx_const; [|const|discriminate|reflexivity]. apply tx_app; [|exact Hb].
    apply tx_const; [|exact Hs|exact N|exact E]. apply tx_app; [apply tx_w; const|exact Ha].
  Qed.

  Lemma infix_empty : forall l o r, is_nil l = false -> is_nil r = false -> is_empty l = Ok false ->
    is_empty r = Ok false -> o <> "" -> is_empty (EInfix l (Some o) r) = Ok false.
  Proof.
    intros l o r Nl Nr El Er No. cbn [is_empty]. rewrite Nl, Nr, El, Er. cbn.
    unfold no_str. rewrite (proj2 (String.eqb_neq _ _) No). reflexivity.
  Qed.
  Lemma infix_on_empty : forall l o r, is_nil l = false -> is_nil r = false -> is_empty l = Ok false ->
    is_empty r = Ok false -> o <> "" -> is_empty (EInfixOn l o r) = Ok false.
  Proof.
    intros l o r Nl Nr El Er No. cbn [is_empty]. rewrite Nl, Nr, El, Er. cbn.
    unfold no_str. rewrite (proj2 (String.eqb_neq _ _) No). reflexivity.
  Qed.

  Lemma and_back : forall l r f g, cond_back l f -> cond_back r g ->
    cond_back (EInfix l (Some "AND") r) (FAnd f g) /\ cond_back (EInfixOn l "AND" r) (FAnd f g).
  Proof.
    intros l r f g (Nl & El & tl & Tl & Gl) (Nr & Er & tr & Tr & Gr).
    assert (T : tx false (w "(" +++ write_expr l +++ w " AND " +++ write_expr r +++ w ")")
                  (KOpen :: tl ++ [KWord "AND"] ++ tr ++ [KClose])%list).
    { apply tx_infix; [exact Tl|exact Tr|const|discriminate|reflexivity]. }
    split; (split; [reflexivity|]).
    - pose proof (infix_empty l "AND" r Nl Nr El Er ltac:(discriminate)) as E. split; [exact E|].
      eexists. split; [cbn [write_expr]; rewrite defined_ok by exact E; exact T|].
      apply prim_and; assumption.
    - pose proof (infix_on_empty l "AND" r Nl Nr El Er ltac:(discriminate)) as E. split; [exact E|].
      eexists. split; [cbn [write_expr]; rewrite defined_ok by exact E; exact T|].
      apply prim_and; assumption.
  Qed.

  Lemma or_back : forall l r f g, cond_back l f -> cond_back r g ->
    cond_back (EInfix l (Some "OR") r) (FOr f g) /\ cond_back (EInfixOn l "OR" r) (FOr f g).
  Proof.
    intros l r f g (Nl & El & tl & Tl & Gl) (Nr & Er & tr & Tr & Gr).
    assert (T : tx false (w "(" +++ write_expr l +++ w " OR " +++ write_expr r +++ w ")")
                  (KOpen :: tl ++ [KWord "OR"] ++ tr ++ [KClose])%list).
    { apply tx_infix; [exact Tl|exact Tr|const|discriminate|reflexivity]. }
    split; (split; [reflexivity|]).
    - pose proof (infix_empty l "OR" r Nl Nr El Er ltac:(discriminate)) as E. split; [exact E|].
      eexists. split; [cbn [write_expr]; rewrite defined_ok by exact E; exact T|].
      apply prim_or; assumption.
    - pose proof (infix_on_empty l "OR" r Nl Nr El Er ltac:(discriminate)) as E. split; [exact E|].
      eexists. split; [cbn [write_expr]; rewrite defined_ok by exact E; exact T|].
      apply prim_or; assumption.
  Qed.

  (* Names and values. *)
  Lemma tx_name : forall x, plain_name x = true -> tx false (w (quote x)) [KName (parts_of x)].
  Proof. intros x H. apply tx_w, const_name, H. Qed.

  Lemma tx_value : forall v a, shown v = Some a -> tx false (write_value v) (value_toks v).
  Proof.
    intros v a H. destruct v eqn:E; try (rewrite <- E in *; exists [Val v]; split; [rewrite E; reflexivity|];
      apply (lexes_val v a H); rewrite E; discriminate).
    assert (T : @value_toks sty GNil = [KWord "NULL"]) by (destruct sty; reflexivity).
    rewrite T. apply tx_w. const.
  Qed.
  Lemma literal_value : forall e v a rest pq, literal_says e v = Some a ->
    p_term pq (literal_toks v ++ rest)%list = Some (a, rest).
  Proof.
    intros e v. induction v; intros a rest pq H; try discriminate; cbn [literal_says] in H;
      try (injection H as <-; reflexivity).
    - destruct (utf8_valid s && (e || no_special s)); [|discriminate]. injection H as <-. reflexivity.
    - injection H as <-. destruct b; reflexivity.
    - injection H as <-. cbn [literal_toks]. destruct (Z.ltb_spec z 0); cbn [app p_term strip p_value andthen].
      + change (String.eqb "-" "-") with true. cbn iota. cbn [andthen]. replace (- Z.of_N (Z.abs_N z))%Z with z by lia. reflexivity.
      + replace (Z.of_N (Z.abs_N z))%Z with z by lia. reflexivity.
    - injection H as <-. cbn [literal_toks app p_term strip p_value]. change (String.eqb "NULL" "decode") with false.
      change (String.eqb "decode" "true") with false. change (String.eqb "decode" "false") with false.
      change (String.eqb "decode" "decode") with true. change (String.eqb "hex" "hex") with true. cbn iota.
      rewrite unhex_encode. reflexivity.
    - apply IHv, H.
  Qed.
  Lemma value_reads : forall v a rest pq, shown v = Some a -> p_term pq (value_toks v ++ rest)%list = Some (a, rest).
  Proof.
    intros v a rest pq H. unfold shown, view_of in H. unfold value_toks. destruct sty as [| |e].
    - destruct v; injection H as <-; reflexivity.
    - destruct v; injection H as <-; reflexivity.
    - pose proof (literal_value e v a rest pq H) as L. destruct v; exact L.
  Qed.
  Lemma literal_head : forall e v a, literal_says e v = Some a ->
    exists t ts, literal_toks v = t :: ts /\ match t with KName _ | KOpen => False | _ => True end
      /\ term_head (t :: ts) = true.
  Proof.
    intros e v. induction v; intros a H; try discriminate; cbn [literal_says] in H; try (eexists _, _; repeat split; fail).
    - destruct b; eexists _, _; repeat split.
    - cbn [literal_toks]. destruct (z <? 0)%Z; eexists _, _; repeat split.
    - apply (IHv a H).
  Qed.
  (* A value is no name and no parenthesis. *)
  Lemma value_head : forall v a, shown v = Some a ->
    exists t ts, value_toks v = t :: ts /\ match t with KName _ | KOpen => False | _ => True end
      /\ term_head (t :: ts) = true.
  Proof.
    intros v a H. unfold shown, view_of in H. unfold value_toks. destruct sty as [| |e].
    - destruct v; eexists _, _; repeat split.
    - destruct v; eexists _, _; repeat split.
    - pose proof (literal_head e v a H) as L. destruct v; exact L.
  Qed.
  Lemma value_gives : forall v a, shown v = Some a -> gives term_of any a (value_toks v).
  Proof.
    intros v a H. split.
    - destruct (value_head v a H) as (t & ts & E & _). rewrite E. discriminate.
    - intros n rest _ _. apply value_reads, H.
  Qed.

  (* An operand that is no name and not in parentheses. *)
  Definition scalar_toks (ts : list lexeme) (a : term) : Prop :=
    match ts with KName _ :: _ | KOpen :: _ => False | _ => True end
    /\ term_head ts = true /\ gives term_of any a ts.
  Definition scalar_back (e : expr) (a : term) : Prop :=
    is_nil e = false /\ is_empty e = Ok false
    /\ exists ts, tx false (write_expr e) ts /\ scalar_toks ts a.

  Lemma scalar_operand : forall e a, scalar_back e a -> operand_back e a.
  Proof.
    intros e a (N & E & ts & T & _ & H & G). split; [exact N|]. split; [exact E|]. exists ts. repeat split; assumption || apply G.
  Qed.

  Lemma value_scalar : forall v a, shown v = Some a -> scalar_back (EValue v) a.
  Proof.
    intros v a H. split; [reflexivity|]. split; [reflexivity|]. exists (value_toks v).
    split; [apply (tx_value v a H)|]. destruct (value_head v a H) as (t & ts & E & N & T).
    pose proof (value_gives v a H) as G. rewrite E in *. split; [destruct t; trivial|]. split; assumption.
  Qed.
  Lemma value_back : forall v a, shown v = Some a -> operand_back (EValue v) a.
  Proof. intros v a H. apply scalar_operand, value_scalar, H. Qed.

  (* A call. *)
  Lemma args_read : forall ts d rest, balanced d ts = true ->
    p_args d (ts ++ KClose :: rest)%list = Some (ts, rest).
  Proof.
    induction ts as [|t ts IH]; intros d rest H.
    - cbn in H. apply Nat.eqb_eq in H. subst d. reflexivity.
    - destruct t; cbn [balanced] in H; try discriminate; cbn [app p_args];
        try (rewrite IH by exact H; reflexivity).
      destruct d as [|d]; [discriminate|]. rewrite IH by exact H. reflexivity.
  Qed.

  Lemma call_scalar : forall s f ts, raw_call s f ts -> scalar_back (ERaw s) (MCall f ts).
  Proof.
    intros s f ts (Hf & Cf & K & B & inside & -> & L).
    assert (K' : forall x, In x not_functions -> String.eqb f x = false).
    { intros x Hx. destruct (String.eqb f x) eqn:E; [|reflexivity]. rewrite <- K. symmetry. apply existsb_exists. eauto. }
    split; [reflexivity|]. split; [cbn [is_empty]; destruct f; [discriminate|reflexivity]|].
    exists (KWord f :: KOpen :: ts ++ [KClose])%list. split; [|split; [exact I|split]].
    - cbn [write_expr]. apply tx_w. intro A.
      exists (KWord f :: KOpen :: ts ++ [KClose])%list, L0, [].
      rewrite tokens_app, (tokens_word A f Hf). change ("(" ++ inside ++ ")") with (String "(" (inside ++ ")")).
      cbn [tokens_from]. change (advance A (LWord f) "(") with (Some ([KWord f; KOpen], L0)). cbn iota beta.
      rewrite (L A). split; [reflexivity|]. split; [reflexivity|]. split; [|discriminate].
      rewrite app_nil_r. reflexivity.
    - cbn [term_head]. rewrite K, orb_true_r. reflexivity.
    - split; [discriminate|]. intros n rest _ _. unfold term_of. cbn [app p_term p_column strip p_value]. rewrite Cf.
      rewrite (String.eqb_sym "NULL"), !K' by (cbn; tauto). cbn [p_call]. rewrite K.
      rewrite <- app_assoc. cbn [app]. rewrite args_read by exact B. reflexivity.
  Qed.

  (* f( ... ) made with NewCall *)
  Lemma with_commas_balanced : forall args ts d, Forall2 argument_says args ts -> balanced d (with_commas ts) = Nat.eqb d 0.
  Proof.
    intros args ts d F. revert d. induction F as [|e t args ts H F IH]; intro d; [reflexivity|].
    destruct ts as [|t' ts]; [destruct H; reflexivity|].
    change (with_commas (t :: t' :: ts)) with (t :: KComma :: with_commas (t' :: ts)).
    destruct H; cbn [balanced]; apply IH.
  Qed.
  Lemma argument_back : forall e t, argument_says e t -> tx false (write_expr e) [t].
  Proof.
    intros e t [x H|s H|]; cbn [write_expr lk_condition].
    - apply tx_name, H.
    - apply tx_w. apply const_word, H.
    - apply tx_w. const.
  Qed.
  Lemma arguments_back : forall args ts, Forall2 argument_says args ts ->
    tx false (sep_by ", " (map write_expr args)) (with_commas ts).
  Proof.
    intros args ts F. induction F as [|e t args ts H F IH]; [apply (tx_weak true), tx_eps|].
    destruct F as [|e' t' args ts H' F]; [apply argument_back, H|].
    change (tx false (write_expr e +++ w ", " +++ sep_by ", " (map write_expr (e' :: args))) (([t] ++ [KComma]) ++ with_commas (t' :: ts))%list).
    apply tx_app; [|exact IH]. apply tx_const; [apply argument_back, H|const|discriminate|reflexivity].
  Qed.
  Lemma new_call_scalar : forall c t, call_says c t -> scalar_back c t.
  Proof.
    intros c t [f args ts Hf Cf K F].
    assert (K' : forall x, In x not_functions -> String.eqb f x = false).
    { intros x Hx. destruct (String.eqb f x) eqn:E; [|reflexivity]. rewrite <- K. symmetry. apply existsb_exists. eauto. }
    split; [reflexivity|]. split; [reflexivity|].
    exists (KWord f :: KOpen :: with_commas ts ++ [KClose])%list. split; [|split; [exact I|split]].
    - unfold new_call. cbn [write_expr].
      change (KWord f :: KOpen :: with_commas ts ++ [KClose])%list with (([KWord f; KOpen] ++ with_commas ts) ++ [KClose])%list.
      apply tx_const; [|const|discriminate|reflexivity]. apply tx_app; [|apply arguments_back with (args := args), F].
      apply tx_w. intro A. exists [KWord f; KOpen], L0, []. rewrite tokens_app, (tokens_word A f Hf).
      cbn [tokens_from]. change (advance A (LWord f) "(") with (Some ([KWord f; KOpen], L0)).
      split; [reflexivity|]. split; [reflexivity|]. split; reflexivity.
    - cbn [term_head]. rewrite K, orb_true_r. reflexivity.
    - split; [discriminate|]. intros n rest _ _. unfold term_of. cbn [app p_term p_column strip p_value]. rewrite Cf.
      rewrite (String.eqb_sym "NULL"), !K' by (cbn; tauto). cbn [p_call]. rewrite K.
      rewrite <- app_assoc. cbn [app]. rewrite args_read by (rewrite (with_commas_balanced args ts 0 F); reflexivity). reflexivity.
  Qed.

  (* table.column *)
  Lemma column_bare : forall s, column_word s = true -> bare s = true.
  Proof.
    intros s H. unfold column_word in H. destruct (dotted s) as [|x [|y l]] eqn:E; try discriminate.
    apply andb_true_iff in H as [H _].
    assert (G : forall s, forallb (fun p => forallb (fun b => lower_char b || is_num b) (list_ascii_of_string p)) (dotted s) = true ->
                forallb word_char (list_ascii_of_string s) = true).
    { clear. intro s. induction s as [|a s IH]; intro H; [reflexivity|]. cbn [list_ascii_of_string forallb]. cbn [dotted] in H.
      unfold word_char at 1, is_alnum, is_alpha. destruct (Ascii.eqb_spec a dot) as [->|N].
      - cbn [forallb list_ascii_of_string andb] in H. rewrite (IH H). reflexivity.
      - destruct (dotted s) as [|z r]; cbn [forallb list_ascii_of_string] in H.
        + rewrite !andb_true_r in H. cbn in IH. rewrite (IH eq_refl). unfold lower_char in H.
          destruct (in_range 97 122 a), (Ascii.eqb a "_"), (is_num a); cbn in H; try discriminate; rewrite ?orb_true_r; reflexivity.
        + apply andb_true_iff in H as [H1 H2]. apply andb_true_iff in H1 as [H0 H1]. rewrite IH by (cbn [forallb]; rewrite H1; exact H2).
          unfold lower_char in H0. destruct (in_range 97 122 a), (Ascii.eqb a "_"), (is_num a); cbn in H0; try discriminate; rewrite ?orb_true_r; reflexivity. }
    assert (L : forall l, forallb lower_word l = true -> forallb (fun p => forallb (fun b => lower_char b || is_num b) (list_ascii_of_string p)) l = true).
    { clear. intro l. induction l as [|p l IH]; intro H; [reflexivity|]. cbn [forallb] in *. apply andb_true_iff in H as [H1 H2]. rewrite (IH H2), andb_true_r.
      destruct p as [|a p]; [discriminate|]. cbn [lower_word] in H1. apply andb_true_iff in H1 as [H0 H1]. cbn [list_ascii_of_string forallb]. rewrite H0. exact H1. }
    destruct s as [|a s]; [discriminate|]. cbn [bare]. cbn [dotted] in E. apply andb_true_iff. split.
    - destruct (Ascii.eqb a dot).
      + injection E as <- _. cbn in H. discriminate.
      + destruct (dotted s) as [|z r]; [discriminate|]. injection E as <- _. cbn [forallb lower_word] in H.
        apply andb_true_iff in H as [H _]. apply andb_true_iff in H as [H _]. unfold lower_char in H. unfold is_alpha.
        destruct (in_range 97 122 a), (Ascii.eqb a "_"); cbn in H; try discriminate; rewrite ?orb_true_r; reflexivity.
    - apply G. destruct (Ascii.eqb a dot).
      + injection E as <- E. rewrite E. cbn [forallb] in H. apply andb_true_iff in H as [_ H]. apply L, H.
      + destruct (dotted s) as [|z r]; [discriminate|]. injection E as <- ->. apply L in H. cbn [forallb list_ascii_of_string] in H |- *.
        apply andb_true_iff in H as [H1 H2]. apply andb_true_iff in H1 as [_ H1]. rewrite H1. exact H2.
  Qed.
  Lemma column_scalar : forall s, column_word s = true -> scalar_back (ERaw s) (MName (dotted s)).
  Proof.
    intros s H. pose proof (column_bare s H) as B.
    split; [reflexivity|]. split; [cbn [is_empty]; destruct s; [discriminate|reflexivity]|].
    exists [KWord s]. split; [|split; [exact I|split]].
    - cbn [write_expr]. apply tx_w. intro A.
      exists [], (LWord s), [KWord s]. rewrite (tokens_word A s B). split; [reflexivity|]. split; [reflexivity|]. split; [reflexivity|]. discriminate.
    - cbn [term_head]. rewrite H, orb_true_r. reflexivity.
    - split; [discriminate|]. intros n rest _ _. unfold term_of. cbn [app p_term p_column]. rewrite H. reflexivity.
  Qed.

  Lemma shown_nil : shown GNil = Some MNull.
  Proof. unfold shown, view_of. destruct sty; reflexivity. Qed.

  Lemma bound_back : forall v a, bound_as v = Some a ->
    exists u, new_expression v = Ok (EValue u) /\ shown u = Some a.
  Proof.
    intros v a H. unfold bound_as in H. destruct (stands_for v) as [u|] eqn:E; [|discriminate].
    exists u. split; [|exact H]. destruct v; try discriminate; cbn in E; try (injection E as <-; reflexivity).
    - destruct t; [|discriminate]. injection E as <-. reflexivity.
    - destruct k; try discriminate. injection E as <-. reflexivity.
  Qed.

  Lemma says_scalar : forall v a, value_says v a ->
    exists e, new_expression v = Ok e /\ scalar_back e a /\ new_wrapper e = e.
  Proof.
    intros v a [v' t H|s f ts H|s H|c t H].
    - destruct (bound_back v' t H) as (u & E & S). exists (EValue u). split; [exact E|]. split; [apply value_scalar, S|reflexivity].
    - exists (ERaw s). split; [reflexivity|]. split; [apply call_scalar, H|reflexivity].
    - exists (ERaw s). split; [reflexivity|]. split; [apply column_scalar, H|reflexivity].
    - exists c. split; [destruct H; reflexivity|]. split; [apply new_call_scalar, H|destruct H; reflexivity].
  Qed.

  (* A subquery as an operand. *)
  Lemma sub_new : forall s g, sub_arg s g -> new_expression g = Ok (ESelect s).
  Proof. intros s g []; reflexivity. Qed.

  Lemma select_empty : forall s, nonempty (s_exprs s) = true -> is_empty (ESelect s) = Ok false.
  Proof. intros s H. cbn. rewrite H. reflexivity. Qed.

  Lemma sub_term : forall s b, query_back s b -> operand_back (EWrap (ESelect s)) (MSub (Query b)).
  Proof.
    intros s b (N & ts & T & G & S). split; [reflexivity|]. split; [apply select_empty, N|].
    exists (KOpen :: ts ++ [KClose])%list. split; [apply tx_parens, T|]. split; [|reflexivity].
    split; [discriminate|]. intros n rest Hn _. cbn [length] in Hn. rewrite app_length in Hn. cbn [length] in Hn.
    unfold term_of, p_term. cbn [app]. rewrite <- app_assoc. cbn [app].
    rewrite (read_parens _ _ _ _ _ n rest G) by (lia || reflexivity). reflexivity.
  Qed.

  (* The tokens of the comparison operators. *)
  Definition op_toks (o : cmp) : list lexeme :=
    match o with
    | OpEqual => [KOp "="] | OpNotEqual => [KOp "!="]
    | OpIs => [KWord "IS"] | OpIsNot => [KWord "IS"; KWord "NOT"]
    | OpGreaterThan => [KOp ">"] | OpGreaterThanOrEqual => [KOp ">="]
    | OpLessThan => [KOp "<"] | OpLessThanOrEqual => [KOp "<="]
    | OpLike => [KWord "LIKE"] | OpNotLike => [KWord "NOT"; KWord "LIKE"]
    | OpILike => [KWord "ILIKE"] | OpNotILike => [KWord "NOT"; KWord "ILIKE"]
    | OpIsDistinctFrom => [KWord "IS"; KWord "DISTINCT"; KWord "FROM"]
    | OpIsNotDistinctFrom => [KWord "IS"; KWord "NOT"; KWord "DISTINCT"; KWord "FROM"]
    | OpContains => [KOp "@>"] | OpIsContainedBy => [KOp "<@"] | OpOverlap => [KOp "&&"]
    end.

  Lemma op_lexes : forall o, const_lexes true (" " ++ cmp_text o ++ " ") (op_toks o).
  Proof. intros []; const. Qed.

  Lemma strip_any_skip : forall l kw ts r, (forall k, In k l -> strip k ts = None) -> strip kw ts = Some r ->
    strip_any (l ++ [kw]) ts = Some (kw, r).
  Proof.
    induction l as [|k l IH]; intros kw ts r H E; cbn [app strip_any].
    - rewrite E. reflexivity.
    - rewrite (H k) by (left; reflexivity). apply IH; [|exact E]. intros k' Hk. apply H. right. exact Hk.
  Qed.

  Lemma head_word : forall s r, term_head (KWord s :: r) = true ->
    String.eqb s "NOT" = false /\ String.eqb s "DISTINCT" = false /\ String.eqb s "EXISTS" = false.
  Proof.
    intros s r H. cbn [term_head] in H. apply orb_true_iff in H. destruct H as [H|H]; [apply orb_true_iff in H; destruct H as [H|H]|].
    - unfold value_word in H. cbn [existsb] in H. rewrite !orb_true_iff, !String.eqb_eq in H.
      destruct H as [-> | [-> | [-> | [-> | H]]]]; try discriminate H; repeat split.
    - assert (X : forall x, column_word x = false -> String.eqb s x = false).
      { intros x Hx. destruct (String.eqb_spec s x) as [->|]; [congruence|reflexivity]. }
      repeat split; apply X; reflexivity.
    - destruct r as [|[] r]; try discriminate H. apply negb_true_iff in H. unfold not_functions in H.
      cbn [existsb] in H. rewrite !orb_false_iff in H. tauto.
  Qed.

  Lemma rest_cmp : forall o l a ts n rest, gives term_of any a ts -> term_head ts = true -> length ts <= n ->
    p_rest (p_query n) l (op_toks o ++ ts ++ rest)%list = Some (FCmp l (sql_op o) a, rest).
  Proof.
    intros o l a ts n rest (N & G) H Hn. specialize (G n rest Hn eq_refl).
    assert (C : forall s, p_cmp (p_query n) l s (ts ++ rest)%list = Some (FCmp l s a, rest)).
    { intro s. unfold p_cmp. unfold term_of in G. rewrite G. reflexivity. }
    destruct o; cbn [op_toks app p_rest sql_op]; try apply C;
      (destruct ts as [|t ts]; [congruence|]; cbn [app] in *;
       destruct t; try discriminate H; rewrite <- C; try reflexivity;
       apply head_word in H; cbn [strip]; unfold word_ops;
       destruct H as (H1 & H2 & _); cbn [strip_any strip];
       rewrite ?(String.eqb_sym _ s), ?H1, ?H2; reflexivity).
  Qed.

  (* A left operand. *)
  Definition left_toks (ts : list lexeme) (a : term) : Prop :=
    match ts with KOpen :: _ => False | _ => True end /\ term_head ts = true /\ gives term_of any a ts.
  Definition left_back (l : expr) (a : term) : Prop :=
    is_nil l = false /\ is_empty l = Ok false
    /\ exists ts, tx false (write_expr l) ts
       /\ left_toks ts a.

  Lemma name_toks : forall n, left_toks [KName n] (MName n).
  Proof. intro n. repeat split. discriminate. Qed.
  Lemma left_name : forall x, plain_name x = true -> left_back (EIdent (GStr x)) (MName (parts_of x)).
  Proof.
    intros x H. split; [reflexivity|]. split; [cbn; rewrite plain_name_nonempty by exact H; reflexivity|].
    exists [KName (parts_of x)]. split; [apply tx_name, H|apply name_toks].
  Qed.
  Lemma name_operand : forall x, plain_name x = true -> operand_back (EIdent (GStr x)) (MName (parts_of x)).
  Proof.
    intros x H. destruct (left_name x H) as (N & E & ts & T & _ & Hh & G). split; [exact N|]. split; [exact E|].
    exists ts. split; [exact T|]. split; assumption.
  Qed.
  Lemma call_back : forall c t, call_says c t -> left_back c t.
  Proof.
    intros c t H. destruct (new_call_scalar c t H) as (N & E & ts & T & Hk & Hh & G). split; [exact N|]. split; [exact E|].
    exists ts. split; [exact T|]. split; [destruct ts as [|[] ts]; trivial|split; assumption].
  Qed.
  Lemma left_value : forall u a, shown u = Some a -> left_back (EValue u) a.
  Proof.
    intros u a H. split; [reflexivity|]. split; [reflexivity|]. exists (value_toks u).
    split; [apply (tx_value u a H)|]. destruct (value_head u a H) as (t & ts & E & N & T).
    pose proof (value_gives u a H) as G. rewrite E in *. split; [destruct t; trivial|]. split; assumption.
  Qed.

  (* ( l ... ) where ... starts with op and is read by p_rest *)
  Lemma atom_rest : forall t a ts f,
    left_toks t a ->
    (forall n rest, length ts <= n -> p_rest (p_query n) a (ts ++ rest)%list = Some (f, rest)) ->
    reads_prim f (t ++ ts)%list.
  Proof.
    intros t a ts f (H1 & H2 & N & H3) G. apply prim_atom.
    - destruct t; [congruence|discriminate].
    - destruct t as [|[] t]; try discriminate. contradiction.
    - intros n rest Hn. rewrite app_length in Hn. unfold Grammar.p_atom.
      assert (S : strip_any [["NOT"; "EXISTS"]; ["EXISTS"]] ((t ++ ts) ++ rest)%list = None).
      { destruct t as [|x t]; [congruence|]. destruct x; try reflexivity.
        apply head_word in H2. destruct H2 as (H2 & _ & H4). cbn [app strip_any strip].
        rewrite (String.eqb_sym "NOT"), H2, (String.eqb_sym "EXISTS"), H4. reflexivity. }
      rewrite S. rewrite <- app_assoc. unfold term_of in H3. rewrite H3 by (reflexivity || lia). apply G. lia.
  Qed.

  Lemma cmp_back : forall l a o v e f0, left_back l a -> operand_back (if cmp_wraps o then new_wrapper f0 else f0) v ->
    e = EInfix l (Some (cmp_text o)) (if cmp_wraps o then new_wrapper f0 else f0) ->
    cond_back e (FCmp a (sql_op o) v).
  Proof.
    intros l a o v e f0 (Nl & El & t & Tl & Ht) (Nr & Er & ts & Tr & G & Hh) ->.
    set (r := if cmp_wraps o then new_wrapper f0 else f0) in *.
    assert (No : cmp_text o <> "") by (destruct o; discriminate).
    pose proof (infix_empty l (cmp_text o) r Nl Nr El Er No) as E.
    split; [reflexivity|]. split; [exact E|].
    exists (KOpen :: (t ++ op_toks o ++ ts) ++ [KClose])%list. split.
    - cbn [write_expr]. rewrite defined_ok by exact E.
      replace (KOpen :: (t ++ op_toks o ++ ts) ++ [KClose])%list with (KOpen :: t ++ op_toks o ++ ts ++ [KClose])%list
        by (rewrite <- !app_assoc; reflexivity).
      apply tx_infix; [exact Tl|exact Tr|apply op_lexes|destruct o; discriminate|destruct o; reflexivity].
    - apply prim_parens. apply atom_rest with (a := a); [exact Ht|]. intros n rest Hn. rewrite app_length in Hn.
      rewrite <- app_assoc. apply rest_cmp; [exact G|exact Hh|lia].
  Qed.

  (* EXISTS ( ... ) *)
  Lemma exists_back : forall s b, query_back s b ->
    cond_back (EExists (ESelect s)) (FExists false (Query b))
    /\ cond_back (ENotExists (ESelect s)) (FExists true (Query b)).
  Proof.
    intros s b (N & ts & T & G & S). split; (split; [reflexivity|]; split; [reflexivity|]).
    - exists (KWord "EXISTS" :: KOpen :: ts ++ [KClose])%list. split.
      + change (KWord "EXISTS" :: KOpen :: ts ++ [KClose])%list with (([KWord "EXISTS"; KOpen] ++ ts) ++ [KClose])%list.
        apply tx_const; [apply tx_app; [apply tx_w; const|exact T]|const|discriminate|reflexivity].
      + apply prim_atom; [discriminate|discriminate|]. intros n rest Hn. cbn [length] in Hn.
        rewrite app_length in Hn. cbn [app]. rewrite <- app_assoc. cbn [app]. unfold Grammar.p_atom.
        cbn [strip_any strip]. change (String.eqb "NOT" "EXISTS") with false.
        change (String.eqb "EXISTS" "EXISTS") with true. cbn iota. unfold p_exists.
        rewrite (read_parens _ _ _ _ _ n rest G) by (lia || reflexivity). reflexivity.
    - exists (KWord "NOT" :: KWord "EXISTS" :: KOpen :: ts ++ [KClose])%list. split.
      + change (KWord "NOT" :: KWord "EXISTS" :: KOpen :: ts ++ [KClose])%list
          with (([KWord "NOT"; KWord "EXISTS"; KOpen] ++ ts) ++ [KClose])%list.
        apply tx_const; [apply tx_app; [apply tx_w; const|exact T]|const|discriminate|reflexivity].
      + apply prim_atom; [discriminate|discriminate|]. intros n rest Hn. cbn [length] in Hn.
        rewrite app_length in Hn. cbn [app]. rewrite <- app_assoc. cbn [app]. unfold Grammar.p_atom.
        cbn [strip_any strip]. change (String.eqb "NOT" "NOT") with true.
        change (String.eqb "EXISTS" "EXISTS") with true. cbn iota. unfold p_exists.
        rewrite (read_parens _ _ _ _ _ n rest G) by (lia || reflexivity). reflexivity.
  Qed.

  (* BETWEEN *)
  Lemma scalar_gives : forall n ts a rest, scalar_toks ts a -> length ts <= n ->
    p_scalar (p_query n) (ts ++ rest)%list = Some (a, rest).
  Proof.
    intros n ts a rest (H & _ & N & G) Hn. specialize (G n rest Hn eq_refl). unfold term_of in G. rewrite <- G.
    destruct ts as [|t ts]; [congruence|]. destruct t; try contradiction; reflexivity.
  Qed.

  Lemma between_back : forall x (neg : bool) u v a b e, plain_name x = true -> scalar_back u a -> scalar_back v b ->
    e = EBetween (GStr x) (if neg then "NOT BETWEEN" else "BETWEEN") u "AND" v ->
    cond_back e (FBetween neg (MName (parts_of x)) a b).
  Proof.
    intros x neg u v a b e Hx (Nu & Eu & tu & Tu & Su) (Nv & Ev & tv & Tv & Sv) ->.
    assert (E : is_empty (EBetween (GStr x) (if neg then "NOT BETWEEN" else "BETWEEN") u "AND" v) = Ok false).
    { cbn. rewrite plain_name_nonempty by exact Hx. rewrite Nu, Nv, Eu, Ev. destruct neg; reflexivity. }
    split; [reflexivity|]. split; [exact E|].
    set (kw := if neg then [KWord "NOT"; KWord "BETWEEN"] else [KWord "BETWEEN"]).
    exists (KOpen :: (KName (parts_of x) :: kw ++ tu ++ KWord "AND" :: tv) ++ [KClose])%list. split.
    - cbn [write_expr]. rewrite defined_ok by exact E. cbn [write_ident].
      replace (KOpen :: (KName (parts_of x) :: kw ++ tu ++ KWord "AND" :: tv) ++ [KClose])%list
        with (((((([KOpen] ++ [KName (parts_of x)]) ++ kw) ++ tu) ++ [KWord "AND"]) ++ tv) ++ [KClose])%list
        by (cbn [app]; rewrite <- !app_assoc; reflexivity).
      apply tx_const; [|const|discriminate|reflexivity].
      apply tx_app; [|exact Tv].
      apply tx_const; [|const|discriminate|reflexivity].
      apply tx_app; [|exact Tu].
      apply tx_const; [|subst kw; destruct neg; const|destruct neg; discriminate|destruct neg; reflexivity].
      apply tx_app; [apply tx_w; const|apply tx_name, Hx].
    - apply prim_parens. apply (atom_rest [_]) with (a := MName (parts_of x)); [apply name_toks|]. intros n rest Hn.
      assert (B : p_between (p_query n) neg (MName (parts_of x)) (tu ++ KWord "AND" :: tv ++ rest)%list
                  = Some (FBetween neg (MName (parts_of x)) a b, rest)).
      { rewrite app_length in Hn. cbn [length] in Hn. rewrite app_length in Hn. cbn [length] in Hn.
        unfold p_between. rewrite (scalar_gives n tu a) by (exact Su || lia). cbn [andthen strip].
        change (String.eqb "AND" "AND") with true.
        cbn iota. rewrite (scalar_gives n tv b) by (exact Sv || lia). reflexivity. }
      rewrite <- B. subst kw. destruct neg; cbn [app]; rewrite <- !app_assoc; reflexivity.
  Qed.

  (* IN ( values ) *)
  Lemma scalars_commas : forall es l, es <> [] -> Forall2 scalar_back es l ->
    exists ts, tx false (sep_by ", " (map write_expr es)) ts
      /\ gives (fun n => p_commas (p_scalar (p_query n))) no_comma l ts.
  Proof.
    intros es l N F.
    destruct (commas_back expr term write_expr (fun n => p_scalar (p_query n)) any es l) as (ts & T & G).
    - reflexivity.
    - exact N.
    - clear N. induction F as [|e a es l (_ & _ & ts & T & S) F IH]; constructor; [|exact IH].
      exists ts. split; [exact T|]. split; [apply S|]. intros n rest Hn _. apply scalar_gives; assumption.
    - exists ts. split; [exact T|]. exact G.
  Qed.
  Lemma values_commas : forall vs l, vs <> [] -> Forall2 (fun v a => shown v = Some a) vs l ->
    exists ts, tx false (sep_by ", " (map write_expr (map EValue vs))) ts
      /\ gives (fun n => p_commas (p_scalar (p_query n))) no_comma l ts.
  Proof.
    intros vs l N F. apply scalars_commas; [destruct vs; [congruence|discriminate]|]. clear N.
    induction F as [|v a vs l H F IH]; cbn [map]; constructor; [apply value_scalar, H|exact IH].
  Qed.

  Lemma in_shape : forall x (neg : bool) a ts tl, is_nil x = false -> is_empty x = Ok false -> tx false (write_expr x) tl ->
    is_nil a = false -> is_empty a = Ok false -> tx false (write_expr a) ts ->
    let e := EIn x (if neg then "NOT IN" else "IN") a in
    let kw := if neg then [KWord "NOT"; KWord "IN"] else [KWord "IN"] in
    is_empty e = Ok false
    /\ tx false (write_expr e) (KOpen :: (tl ++ kw ++ KOpen :: ts ++ [KClose]) ++ [KClose])%list.
  Proof.
    intros x neg a ts tl Nx Ex Tx Na Ea Ta e kw.
    assert (E : is_empty e = Ok false).
    { subst e. cbn [is_empty]. rewrite ?Nx, ?Ex, ?Na, ?Ea. destruct neg; reflexivity. }
    split; [exact E|]. subst e. cbn [write_expr]. rewrite defined_ok by exact E. rewrite Ea.
    change (unless (Ok false) (write_expr a)) with (write_expr a).
    replace (KOpen :: (tl ++ kw ++ KOpen :: ts ++ [KClose]) ++ [KClose])%list
      with (((([KOpen] ++ tl) ++ (kw ++ [KOpen])) ++ ts) ++ [KClose; KClose])%list
      by (cbn [app]; repeat (rewrite <- !app_assoc; cbn [app]); reflexivity).
    apply tx_const; [|const|discriminate|reflexivity].
    apply tx_app; [|exact Ta].
    apply tx_const; [|subst kw; destruct neg; const|destruct neg; discriminate|destruct neg; reflexivity].
    apply tx_app; [apply tx_w; const|exact Tx].
  Qed.

  Lemma in_back : forall x t (neg : bool) vs l e, left_back x t -> vs <> [] ->
    Forall2 (fun v a => shown v = Some a) vs l ->
    e = EIn x (if neg then "NOT IN" else "IN") (EArray (map EValue vs)) ->
    cond_back e (FIn neg t l).
  Proof.
    intros x t neg vs l e (Nx & Ex & tl & Tx & Lx) Nv F ->. destruct (values_commas vs l Nv F) as (ts & T & G).
    assert (Ea : is_empty (EArray (map EValue vs)) = Ok false) by (destruct vs; [congruence|reflexivity]).
    destruct (in_shape x neg (EArray (map EValue vs)) ts tl Nx Ex Tx eq_refl Ea T) as (E & T').
    split; [reflexivity|]. split; [exact E|]. eexists. split; [exact T'|].
    apply prim_parens. apply atom_rest with (a := t); [exact Lx|]. intros n rest Hn.
    assert (B : p_in (p_query n) neg t (KOpen :: ts ++ KClose :: rest)%list
                = Some (FIn neg t l, rest)).
    { destruct G as (_ & G). cbn [p_in]. rewrite G; [reflexivity| |reflexivity].
      rewrite app_length in Hn. cbn [length] in Hn. rewrite app_length in Hn. lia. }
    rewrite <- B. destruct neg; cbn [app]; rewrite <- !app_assoc; reflexivity.
  Qed.

  Lemma starts_no_values : forall pq ts rest, starts ts = true ->
    match p_commas (p_scalar pq) (ts ++ rest)%list with Some (_, KClose :: _) => False | _ => True end.
  Proof.
    intros pq ts rest H. unfold p_commas. destruct ts as [|t ts]; [discriminate|]. destruct t; try discriminate.
    cbn [app length commas_fuel p_scalar].
    assert (D : (forall r, p_term pq (KWord s :: ts ++ rest)%list <> Some r)
      \/ (exists t ts', ts = KWord t :: ts')).
    { destruct ts as [|[] ts]; try (left; intros r; cbn [starts existsb] in H;
        rewrite !orb_true_iff, !String.eqb_eq in H; destruct H as [-> | [-> | H]];
        first [discriminate|destruct rest as [|[] rest]; discriminate]).
      right. eauto. }
    destruct D as [D|(t & ts' & ->)].
    - destruct (p_term pq (KWord s :: ts ++ rest)%list) as [r|] eqn:E; [|exact I]. destruct (D r). reflexivity.
    - cbn [app]. cbn [p_term p_column strip p_value]. destruct (column_word s); [exact I|].
      destruct (String.eqb "NULL" s); [exact I|]. destruct (String.eqb s "true"); [exact I|].
      destruct (String.eqb s "false"); [exact I|]. destruct (String.eqb s "decode"); exact I.
  Qed.

  Lemma in_sub_back : forall x t (neg : bool) s b e, left_back x t -> query_back s b ->
    e = EIn x (if neg then "NOT IN" else "IN") (EArray [ESelect s]) ->
    cond_back e (FInSub neg t (Query b)).
  Proof.
    intros x t neg s b e (Nx & Ex & tl & Tx & Lx) (N & ts & T & G & S) ->.
    destruct (in_shape x neg (EArray [ESelect s]) ts tl Nx Ex Tx eq_refl eq_refl T) as (E & T').
    split; [reflexivity|]. split; [exact E|]. eexists. split; [exact T'|].
    apply prim_parens. apply atom_rest with (a := t); [exact Lx|]. intros n rest Hn.
    assert (B : p_in (p_query n) neg t (KOpen :: ts ++ KClose :: rest)%list
                = Some (FInSub neg t (Query b), rest)).
    { cbn [p_in]. pose proof (starts_no_values (p_query n) ts (KClose :: rest) S) as V.
      assert (P : p_parens (p_query n) (KOpen :: ts ++ KClose :: rest)%list = Some (Query b, rest)).
      { apply (read_parens _ _ _ _ _ n rest G); [|reflexivity].
        rewrite app_length in Hn. cbn [length] in Hn. rewrite app_length in Hn. lia. }
      rewrite P. destruct (p_commas _ _) as [[vs [|h r]]|]; [reflexivity| |reflexivity].
      destruct h; try reflexivity. contradiction. }
    rewrite <- B. destruct neg; cbn [app]; rewrite <- !app_assoc; reflexivity.
  Qed.

  (* ON *)
  Lemma on_back : forall x y, plain_name x = true -> plain_name y = true ->
    cond_back (lk_on x y) (FCmp (MName (parts_of x)) "=" (MName (parts_of y))).
  Proof.
    intros x y Hx Hy. split; [reflexivity|].
    split; [unfold lk_on; cbn [is_empty c_name lk_column]; rewrite !plain_name_nonempty by assumption; reflexivity|].
    exists [KName (parts_of x); KOp "="; KName (parts_of y)]. split.
    - cbn [lk_on write_expr]. unfold write_column, lk_column. cbn [c_name c_alias no_str].
      change (negb (no_str "")) with false. cbn [when]. rewrite !cat_eps_r.
      change [KName (parts_of x); KOp "="; KName (parts_of y)] with (([KName (parts_of x)] ++ [KOp "="]) ++ [KName (parts_of y)])%list.
      apply tx_app; [|apply tx_name, Hy]. apply tx_const; [apply tx_name, Hx|const|discriminate|reflexivity].
    - apply prim_atom; [discriminate|discriminate|]. intros n rest _. reflexivity.
  Qed.

  Lemma on_says_back : forall c f, on_says c f -> cond_back c f.
  Proof.
    intros c f H. induction H as [x y Hx Hy|a b f g Ha IHa Hb IHb|a b f g Ha IHa Hb IHb].
    - apply on_back; assumption.
    - apply and_back; assumption.
    - apply or_back; assumption.
  Qed.
End Written.
