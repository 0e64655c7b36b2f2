(** * What a call leaves behind *)
From Verif.Model Require Import Base MetaRun.

(** The commits among what is sent. *)
Fixpoint commits_of {V} (es : list (event V)) : list V := match es with [] => [] | File :: es => commits_of es | Commit v :: es => v :: commits_of es end.
(** The number of goroutines of finished or running calls that have not returned, apart from the caller's own. *)
Definition running {V A} (c : @mrun V A) : nat := (match m_coll c with Idle | Gone => 0 | _ => 1 end) + m_drains c.
(** Nothing can happen any more. *)
Definition at_rest {S} (step : S -> S -> Prop) (s : S) : Prop := forall s', ~ step s s'.
(** Calls one after the other, each run until nothing can happen any more: the number of goroutines that are left, and what the last call returned. *)
Inductive calls {V A} (put : A -> V -> A) (a0 : A) : list (bool * list (event V)) -> nat -> Prop :=
| calls_none : calls put a0 [] 0
| calls_more ks started es n c : calls put a0 ks n ->
    rtc (mstep put a0 started es) (meta_call n) c -> at_rest (mstep put a0 started es) c ->
    calls put a0 (ks ++ [(started, es)]) (running c).
