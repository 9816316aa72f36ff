(** * XbThms: which accepted command lines of dumpnodeindex are carried out (C101), exactly. *)
From Verif Require Import Base PbSpec PbModel TModel HLModel FrModel ZlModel IoModel IoSpec NiModel NiSpec WiModel WiSpec DuModel DuSpec NiThms WiThms DuThms.
From Verif Require Import BaseLemmas PbThms IoThms NiProofs NiProofs2 NiProofs3 NiProofs4 NiThms WiProofs WiProofs2 WiThms DuThms.
From Verif Require Import WiSpec DuSpec.
From Verif Require Import DuThms DwThms.
From Verif Require Import NiSpec.

(** C101, exactly (the part numbers are unsigned): an accepted command line of dumpnodeindex is carried out without a panic, on
    a file with index [rs ++ [l]], if and only if there are at most as many parts as locations, the part's share starts no later
    than the last range, and the start element is not negative or no element is to be printed. *)
Lemma pC101_node_dump_exact : forall o contents rs l locs, NewNodeIndex contents = Ok (index_of (rs ++ [l]) locs) -> index_ok (rs ++ [l]) locs -> Forall is_s64 locs ->
  parseArgs node_dump_validate (Parsed o []) = Starts o ->
  (forall i, nd_SubIndexIndex o = Some i -> 0 <= i) ->
  ((exists lines, node_dump o contents = Ok lines) <->
   (forall i n, nd_SubIndexIndex o = Some i -> nd_SubIndexCount o = Some n -> n <= zlen locs /\ zlen locs / n * i <= total rs) /\
   (forall st, nd_StartElement o = Some st -> 0 <= st \/ exists e, nd_EndElement o = Some e /\ e <= st)).
Proof.
  intros o contents rs l locs E Hi Hl Ha Hpos.
  assert (Pos : (forall st, nd_StartElement o = Some st -> 0 <= st) -> (exists lines, node_dump o contents = Ok lines) <->
    (forall i n, nd_SubIndexIndex o = Some i -> nd_SubIndexCount o = Some n -> n <= zlen locs /\ zlen locs / n * i <= total rs)).
  { intros H. exact (pC101_node_dump_partial o contents rs l locs E Hi Hl Ha Hpos H). }
  destruct (nd_StartElement o) as [st|] eqn:Es.
  2:{ rewrite Pos by (intros st X; discriminate X). split; [intros H; split; [exact H|intros st X; discriminate X]|intros (H & _); exact H]. }
  destruct (Z.lt_ge_cases st 0) as [L|L].
  2:{ rewrite Pos by (intros st' X; injection X as <-; exact L). split; [intros H; split; [exact H|intros st' X; injection X as <-; left; exact L]|intros (H & _); exact H]. }
  clear Pos. destruct o as [p s ii ic se ee sys]. cbn [nd_StartElement nd_SubIndexIndex nd_SubIndexCount nd_EndElement] in *. subst se.
  pose proof (pC101_node_dump_partial (mkNodeDump p s ii ic (Some 0) (Some 0) sys) contents rs l locs E Hi Hl) as P. cbn [nd_StartElement nd_SubIndexIndex nd_SubIndexCount] in P.
  rewrite <- P; [|apply pC101_starts; apply pC101_starts in Ha; split; [reflexivity|exact (proj2 Ha)]|exact Hpos|intros st' X; injection X as <-; lia]. clear P.
  unfold node_dump. rewrite E. cbn [bind nd_StartElement nd_SubIndexIndex nd_SubIndexCount nd_EndElement].
  match goal with |- context [bind ?m _] => destruct m as [si|q|] end; cbn [bind].
  2,3: split; [intros (x & X); discriminate X|intros ((x & X) & _); discriminate X].
  pose proof (zlen_nonneg (si_element si)) as C0.
  assert (Z0 : Z.to_nat ((if 0 <? zlen (si_element si) then 0 else zlen (si_element si)) - 0) = 0%nat) by (destruct (Z.ltb_spec 0 (zlen (si_element si))); lia).
  rewrite Z0. cbn [node_dump_elements].
  assert (W : (exists e, ee = Some e /\ e <= st) <-> Z.to_nat ((match ee with Some e => if e <? zlen (si_element si) then e else zlen (si_element si) | None => zlen (si_element si) end) - st) = 0%nat).
  { destruct ee as [e|].
    - split; [intros (e' & X & Y); injection X as <-; destruct (Z.ltb_spec e (zlen (si_element si))); lia|]. intros Q. exists e. split; [reflexivity|]. destruct (Z.ltb_spec e (zlen (si_element si))); lia.
    - split; [intros (e' & X & _); discriminate X|lia]. }
  revert W. match goal with |- context [Z.to_nat (?a - st)] => generalize (Z.to_nat (a - st)) end. intros [|k] W; cbn [node_dump_elements].
  - split; [|intros _; eexists; reflexivity]. intros _. split; [eexists; reflexivity|]. intros st' X. injection X as <-. right. apply W. reflexivity.
  - unfold lidx at 1. replace ((0 <=? st) && (st <? zlen (si_element si))) with false by lia. cbn [bind].
    split; [intros (x & X); discriminate X|]. intros (_ & H). destruct (H st eq_refl) as [X|X]; [lia|]. apply W in X. discriminate X.
Qed.
(** The ten ranges in parts: accepted and carried out with a negative start where nothing is to be printed; not carried out
    where something is. *)
Lemma pC101_node_dump_ex : let o e := mkNodeDump true true (Some 1) (Some 5) (Some (-3)) e plain in
  NewNodeIndex (ex_file ex_ten (repeat (-1) 10)) = Ok (index_of ex_ten (repeat (-1) 10)) /\ index_ok ex_ten (repeat (-1) 10) /\
  (forall e, parseArgs node_dump_validate (Parsed (o e) []) = Starts (o e)) /\
  node_dump (o (Some (-4))) (ex_file ex_ten (repeat (-1) 10)) = Ok [] /\ node_dump (o (Some (-2))) (ex_file ex_ten (repeat (-1) 10)) = Panic IndexOutOfRange.
Proof.
  split; [vm_compute; reflexivity|]. split; [exact ex_ten_ok|]. split; [intros e; reflexivity|]. split; vm_compute; reflexivity.
Qed.
