(* Proofs for the exact condition of C46. *)
From Verif Require Export JoinP.

Definition equality_eq (a b : equality) : {a = b} + {a <> b}.
Proof. decide equality; apply string_dec. Defined.

(* The truth of the equalities of a list only. *)
Definition holds_in (l : list equality) (e : equality) : bool := if in_dec equality_eq e l then true else false.

Notation fold_meaning v := (fold_left (fun b (oe : conn * equality) =>
  match fst oe with AndC => b && v (snd oe) | OrC => b || v (snd oe) end)).

Lemma first_or : forall rest, ands_first false rest = false ->
  exists pre x suf, rest = (pre ++ (OrC, x) :: suf)%list /\ Forall (fun oe => fst oe = AndC) pre
    /\ ands_first true suf = false.
Proof.
  induction rest as [|[[] e] rest IH]; intro H; [discriminate| |]; cbn [ands_first negb andb] in H.
  - destruct (IH H) as (pre & x & suf & -> & F & S). exists ((AndC, e) :: pre), x, suf.
    split; [reflexivity|]. split; [constructor; [reflexivity|exact F]|exact S].
  - exists [], e, rest. split; [reflexivity|]. split; [constructor|exact H].
Qed.

Lemma true_ands : forall v pre rest, Forall (fun oe => fst oe = AndC) pre ->
  (forall oe, In oe pre -> v (snd oe) = true) ->
  fold_meaning v (pre ++ rest) true = fold_meaning v rest true
  /\ sql_meaning v true (pre ++ rest) = sql_meaning v true rest.
Proof.
  induction pre as [|[o e] pre IH]; intros rest F T; [split; reflexivity|].
  inversion_clear F as [|? ? Fo Fp]. cbn in Fo. subst o.
  cbn [app fold_left fst snd sql_meaning]. rewrite (T (AndC, e) (or_introl eq_refl) : v e = true). cbn [andb].
  apply IH; [exact Fp|]. intros oe H. apply T. right. exact H.
Qed.

Lemma false_rest : forall v suf b, (forall oe, In oe suf -> v (snd oe) = false) ->
  (b = false \/ ands_first true suf = false) -> fold_meaning v suf b = false.
Proof.
  induction suf as [|[o e] suf IH]; intros b F H; [destruct H as [H|H]; [exact H|discriminate]|].
  cbn [fold_left fst snd]. rewrite (F (o, e) (or_introl eq_refl) : v e = false).
  assert (F' : forall oe, In oe suf -> v (snd oe) = false) by (intros oe K; apply F; right; exact K).
  destruct o; cbn [ands_first negb andb] in H.
  - apply IH; [exact F'|]. left. apply andb_false_r.
  - apply IH; [exact F'|]. rewrite orb_false_r. exact H.
Qed.

Lemma meaning_exact : forall e rest, NoDup (e :: map snd rest) -> ands_first false rest = false ->
  exists v, on_meaning v (on_condition e rest) = false /\ sql_meaning v (v e) rest = true.
Proof.
  intros e rest N H. destruct (first_or rest H) as (pre & x & suf & -> & F & S).
  set (l := e :: map snd pre). exists (holds_in l). rewrite on_meaning_condition.
  assert (Tv : forall a, In a l -> holds_in l a = true).
  { intros a Ha. unfold holds_in. destruct (in_dec equality_eq a l); [reflexivity|contradiction]. }
  assert (Fv : forall oe, In oe ((OrC, x) :: suf) -> holds_in l (snd oe) = false).
  { intros oe Ho. unfold holds_in. destruct (in_dec equality_eq (snd oe) l) as [K|]; [exfalso|reflexivity].
    rewrite map_app in N. change (e :: (map snd pre ++ map snd ((OrC, x) :: suf)))%list
      with (l ++ map snd ((OrC, x) :: suf))%list in N.
    apply (in_map snd) in Ho. revert N K Ho. generalize (map snd ((OrC, x) :: suf)) as k. generalize l as l0.
    induction l0 as [|a l0 IH]; intros k N K Ho; [exact K|]. inversion_clear N as [|? ? Na Nl].
    destruct K as [->|K]; [apply Na, in_or_app; right; exact Ho|exact (IH k Nl K Ho)]. }
  rewrite (Tv e) by (left; reflexivity).
  destruct (true_ands (holds_in l) pre ((OrC, x) :: suf) F) as [-> ->].
  { intros oe Ho. apply Tv. right. apply in_map, Ho. }
  cbn [fold_left fst snd sql_meaning orb]. split; [|reflexivity].
  apply false_rest; [|right; exact S]. intros oe Ho. apply Fv. right. exact Ho.
Qed.
