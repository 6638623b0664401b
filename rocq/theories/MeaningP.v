(* Proofs about Meaning.v: the database reads the text of a program as the statement that the
   program says, and what that means. *)
From Coq Require Import Permutation.
From Verif Require Import GrammarReadP PropsGrammar EffectP TablesP.
From Verif Require Export Meaning.

Lemma means_body {g} : forall b (db : tabledb g) o, q_prefix b = [] -> q_suffix b = [] ->
  means (Query b) db o = body_rows g means query_columns b db o.
Proof. intros b db o E1 E2. cbn [means]. rewrite E1, E2. reflexivity. Qed.
Lemma name_eqb_refl : forall n, name_eqb n n = true.
Proof. intro n. unfold name_eqb. destruct (list_eq_dec string_dec n n); [reflexivity|congruence]. Qed.

Section Programs.
  Context {O : Oracle}.
  #[local] Existing Instance Bound.

  Lemma whole_all : forall fs, whole_formula fs = all_conditions fs.
  Proof. intros [[f l]|]; reflexivity. Qed.

  Lemma described_responds : forall s b, sel_says s b -> q_items b <> [] ->
    forall g (db : tabledb g), responds db s (means (Query b) db nothing).
  Proof.
    intros s b S N g db. destruct (C49_select_read_back s b S N) as (text & values & Q & R).
    exists text, values. split; [exact Q|]. unfold answer. rewrite R. reflexivity.
  Qed.

  (* What the program says after each call. *)
  Definition nth_body (don : list name) (l : list item) (d : bool) (w : list (string * squery)) (ts : list tableref)
    (js : list (list string * tableref * formula)) (wh : option formula) (gs : list name) (h : option formula)
    (o : list (string * string)) (n k : option N) : body :=
    {| q_prefix := []; q_with := w; q_distinct_on := don; q_distinct := d; q_items := l; q_from := ts; q_joins := js;
       q_where := wh; q_group_by := gs; q_having := h; q_order_by := o; q_limit := n; q_offset := k; q_suffix := [] |}.

  Lemma program_described : forall p b s, program_says p b -> program_select p = Ok s -> sel_says s b.
  Proof.
    intros [args d ds ws froms js c gs h os wi] [pre w don d' l ts jl wh gb hv ob li ofs suf] s P H.
    destruct P as [(Na & Ha & Nl) Hd Hdo Hw Hf Hj (fs & Hc & Ew) Hg Hh Ho (Hwi & El & Eo) (E1 & E2)].
    cbn [q_prefix q_with q_distinct_on q_distinct q_items q_from q_joins q_where q_group_by q_having q_order_by q_limit
         q_offset q_suffix pr_args pr_distinct pr_distinct_on pr_with pr_from pr_joins pr_conditions pr_group_by pr_having pr_order_by pr_window] in *.
    subst d' wh li ofs pre suf.
    unfold program_select in H. cbn [pr_args] in H.
    destruct (lk_select args) as [s0|] eqn:E0; [|discriminate]. cbn [bind] in H.
    pose proof (sel_columns new_select empty_body args l s0 sel_new Na Ha E0) as S0.
    unfold program_calls in H. cbn [pr_args pr_distinct pr_distinct_on pr_with pr_from pr_joins pr_conditions pr_group_by pr_having pr_order_by pr_window] in H.
    apply run_app in H as (s1 & R1 & H).
    assert (S1 : sel_says s1 (nth_body [] l d [] [] [] None [] None [] None None)).
    { destruct d.
      - apply run_cons in R1 as (y & Ey & R1). cbn in R1. injection R1 as <-. exact (sel_distinct s0 _ y S0 Ey).
      - cbn in R1. injection R1 as <-. exact S0. }
    apply run_app in H as (s1' & R1' & H).
    assert (S1' : sel_says s1' (nth_body don l d [] [] [] None [] None [] None None)).
    { destruct ds as [|d0 ds]; cbn [unless_none] in R1'.
      - subst don. cbn in R1'. injection R1' as <-. exact S1.
      - apply run_cons in R1' as (y & Ey & R1'). cbn in R1'. injection R1' as <-. exact (sel_distinct_on s1 _ _ don y S1 Hdo Ey). }
    clear S1. rename S1' into S1. clear R1. rename s1 into s1o, s1' into s1.
    apply run_app in H as (s2 & R2 & H).
    assert (S2 : sel_says s2 (nth_body don l d w [] [] None [] None [] None None)).
    { destruct ws as [|w0 ws]; cbn [unless_none] in R2.
      - inversion Hw; subst. cbn in R2. injection R2 as <-. exact S1.
      - apply run_cons in R2 as (y & Ey & R2). cbn in R2. injection R2 as <-. exact (sel_with s1 _ _ w y S1 Hw Ey). }
    apply run_cons in H as (s3 & R3 & H).
    pose proof (sel_from s2 _ froms ts s3 S2 Hf R3) as S3.
    apply run_app in H as (s4 & R4 & H).
    pose proof (join_calls js jl Hj s3 _ s4 S3 R4) as S4.
    apply run_app in H as (s5 & R5 & H).
    pose proof (sel_conds c fs s4 (nth_body don l d w ts jl None [] None [] None None) s5 Hc eq_refl S4 R5) as S5.
    rewrite whole_all in S5.
    apply run_app in H as (s6 & R6 & H).
    assert (S6 : sel_says s6 (nth_body don l d w ts jl (all_conditions fs) gb None [] None None)).
    { destruct gs as [|g0 gs]; cbn [unless_none] in R6.
      - subst gb. cbn in R6. injection R6 as <-. exact S5.
      - apply run_cons in R6 as (y & Ey & R6). cbn in R6. injection R6 as <-. exact (sel_group_by s5 _ _ gb y S5 Hg Ey). }
    apply run_app in H as (s7 & R7 & H).
    assert (S7 : sel_says s7 (nth_body don l d w ts jl (all_conditions fs) gb hv [] None None)).
    { destruct h as [e|], hv as [f|]; try contradiction.
      - apply run_cons in R7 as (y & Ey & R7). cbn in R7. injection R7 as <-. exact (sel_having s6 _ e f y S6 Hh Ey).
      - cbn in R7. injection R7 as <-. exact S6. }
    apply run_app in H as (s8 & R8 & H).
    assert (S8 : sel_says s8 (nth_body don l d w ts jl (all_conditions fs) gb hv ob None None)).
    { destruct os as [|o0 os]; cbn [unless_none] in R8.
      - inversion Ho; subst. cbn in R8. injection R8 as <-. exact S7.
      - apply run_cons in R8 as (y & Ey & R8). cbn in R8. injection R8 as <-. exact (sel_order_by s7 _ _ ob y S7 Ho Ey). }
    destruct wi as [|n|n k]; cbn [window_calls window_ok window_first window_skip] in *.
    - cbn in H. injection H as <-. exact S8.
    - destruct Hwi as [Hn On]. apply run_cons in H as (y & Ey & H). cbn in H. injection H as <-.
      pose proof (sel_limit s8 _ (GInt KInt64 n) n y S8 On ltac:(discriminate) eq_refl Ey) as S9.
      rewrite (nonzero_pos n Hn) in S9. exact S9.
    - destruct Hwi as (Hn & On & Hk & Ok_). apply run_cons in H as (y & Ey & H). apply run_cons in H as (z & Ez & H).
      cbn in H. injection H as <-.
      pose proof (sel_limit s8 _ (GInt KInt64 n) n y S8 On ltac:(discriminate) eq_refl Ey) as S9.
      rewrite (nonzero_pos n Hn) in S9.
      exact (sel_offset y _ (GInt KInt64 k) k z S9 Ok_ ltac:(discriminate) eq_refl Ez).
  Qed.

  Lemma program_responds : forall p b s, program_says p b -> program_select p = Ok s ->
    forall g (db : tabledb g), responds db s (means (Query b) db nothing).
  Proof.
    intros p b s P H. apply described_responds; [exact (program_described p b s P H)|]. apply (ps_args p b P).
  Qed.

  (* One answer only. *)
  Lemma responds_once : forall s g (db : tabledb g) out out', responds db s out -> responds db s out' -> out = out'.
  Proof.
    intros s g db out out' (t & v & Q & R) (t' & v' & Q' & R'). rewrite Q in Q'. injection Q' as <- <-. congruence.
  Qed.
End Programs.
