(** * The report about a run, line by line *)
From Verif.Model Require Import Base IncBlame Timing.
From Verif.Spec Require Import Text Statistics Processing.

(** A line of words with a space between them. *)
Fixpoint words (l : list bytes) : bytes := match l with [] => [] | [w] => w | w :: r => w ++ [SP] ++ words r end.
(** Durations are written so that they can be read: differently for different durations, without spaces and newlines. *)
Definition readable (dur_text : Z -> bytes) : Prop := (forall d d', dur_text d = dur_text d' -> d = d') /\ forall d, SP ∉ dur_text d /\ NL ∉ dur_text d.
(** A commit id: without spaces and newlines. *)
Definition plain_id (c : bytes) : Prop := SP ∉ c /\ NL ∉ c.

(** The report about the commits [done], each with the time it took, and [n] files that took [d] together. *)
Definition report (dur_text : Z -> bytes) (parents : bytes -> list bytes) (done : list (bytes * Z)) (n : nat) (d : Z) (text : bytes) : Prop :=
  let merges := filter (fun x => 1 < length (parents x.1)) done in
  let others := filter (fun x => ~ 1 < length (parents x.1)) done in
  exists slow, slowest_of (map (fun x => Timed x.1 x.2) done) slow /\
  text = unlines (
    [ [];
      B "git processor timing";
      words [B "regular commits"; show_nat (length others)];
      words [B "time in regular commits"; dur_text (total (map snd others))];
      words [B "merges"; show_nat (length merges)];
      words [B "time in merges commits"; dur_text (total (map snd merges))];
      words [B "time in"; show_nat (min 10 (length done)); B "slowest commits"; dur_text (total (map t_dur slow))];
      B "slowest commits" ] ++
    map (fun c => words [t_commit c; dur_text (t_dur c)]) slow ++
    [ [];
      B "code info timing";
      words [B "files processed"; show_nat n];
      words [B "total time"; dur_text d];
      [] ]).
