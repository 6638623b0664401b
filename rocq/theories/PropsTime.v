(* C48: time literals printed by String(). *)
From Coq Require Import Lia.
From Verif Require Import RenderP Sort Calendar CalendarP StampP.
Open Scope Z_scope.

(* In the specification a stamp names one instant at most: the calendar counts every day
   once. *)
Theorem C48_one_instant : forall st a b, denotes st a -> denotes st b -> a = b.
Proof. exact denotes_unique. Qed.
Print Assumptions C48_one_instant.

(* From 0001-01-01 to 9999-12-31, in UTC: the literal is well formed and names the instant
   of the value, without the digits after the microsecond. *)
Theorem C48_time_literal {O : Oracle} : forall t,
  -62135596800 <= tm_sec t < 253402300800 -> 0 <= tm_nsec t < 1000000000 ->
  exists st, read_stamp (literal (GTime t)) = Some st
    /\ denotes st (tm_sec t * 1000000 + tm_nsec t / 1000).
Proof. intros t H1 H2. apply format_time_reads; assumption. Qed.
Print Assumptions C48_time_literal.

Example C48_leap_day :
  literal (O := go_oracle) (GTime {| tm_sec := 951782399; tm_nsec := 120000999 |})
    = "'2000-02-28 23:59:59.12+00'"%string
  /\ literal (O := go_oracle) (GTime {| tm_sec := 951782400; tm_nsec := 0 |})
    = "'2000-02-29 00:00:00+00'"%string
  /\ literal (O := go_oracle) (GTime {| tm_sec := -1; tm_nsec := 999999000 |})
    = "'1969-12-31 23:59:59.999999+00'"%string
  /\ literal (O := go_oracle) (GTime {| tm_sec := -62135596800; tm_nsec := 0 |})
    = "'0001-01-01 00:00:00+00'"%string.
Proof. vm_compute. repeat split. Qed.

(* Two times print alike exactly when they fall in the same microsecond. *)
Theorem C48_same_microsecond {O : Oracle} : forall t u,
  -62135596800 <= tm_sec t < 253402300800 -> 0 <= tm_nsec t < 1000000000 ->
  -62135596800 <= tm_sec u < 253402300800 -> 0 <= tm_nsec u < 1000000000 ->
  (literal (GTime t) = literal (GTime u)
   <-> tm_sec t * 1000000 + tm_nsec t / 1000 = tm_sec u * 1000000 + tm_nsec u / 1000).
Proof.
  intros t u H1 H2 H3 H4.
  destruct (format_time_reads t H1 H2) as (a & Ra & Da).
  destruct (format_time_reads u H3 H4) as (b & Rb & Db).
  change (literal (GTime t)) with (format_time t). change (literal (GTime u)) with (format_time u).
  split.
  - intros E. rewrite E, Rb in Ra. injection Ra as <-. exact (denotes_unique _ _ _ Da Db).
  - intros E. unfold format_time.
    assert (S : tm_sec t = tm_sec u).
    { assert (0 <= tm_nsec t / 1000 < 1000000) by (Z.div_mod_to_equations; lia).
      assert (0 <= tm_nsec u / 1000 < 1000000) by (Z.div_mod_to_equations; lia). lia. }
    assert (N : tm_nsec t / 1000 = tm_nsec u / 1000) by lia.
    rewrite S. unfold format_micro. rewrite N. reflexivity.
Qed.
Print Assumptions C48_same_microsecond.

(* Outside these years the literal is not a PostgreSQL timestamp: 31 December of the year
   before year 1, the year -1, the year 10000 (PostgreSQL itself reads the last one). *)
Theorem C48_other_years_refuted {O : Oracle} :
  literal (GTime {| tm_sec := -62135596801; tm_nsec := 0 |}) = "'0000-12-31 23:59:59+00'"%string
  /\ literal (GTime {| tm_sec := -62198755200; tm_nsec := 0 |}) = "'-0001-01-01 00:00:00+00'"%string
  /\ literal (GTime {| tm_sec := 253402300800; tm_nsec := 0 |}) = "'10000-01-01 00:00:00+00'"%string
  /\ forall s, In s [-62135596801; -62198755200; 253402300800] ->
     read_stamp (literal (GTime {| tm_sec := s; tm_nsec := 0 |})) = None.
Proof.
  repeat (split; [vm_compute; reflexivity|]).
  intros s H. repeat (destruct H as [<-|H]; [vm_compute; reflexivity|]). destruct H.
Qed.
Print Assumptions C48_other_years_refuted.
