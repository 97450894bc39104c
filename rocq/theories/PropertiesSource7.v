(** C74: what client programs mean.  SpecProg.v gives each program (C73) a meaning in
    mathematics: sets of points, the least element first, or with [next_back] the greatest.  The translated text of the
    source, in a debug build, gives that meaning or panics where SpecProg.v says it may;
    a release build gives the same values; a program whose meaning is reached does not run
    forever.  Left open by SpecProg.v are the intersections of two [LowerBoundedSet]s
    (C02) and iterators of sets with more than [usize::MAX] consecutive elements (C23). *)
From Coq Require Import String Lia ZifyBool Sorted.
From Verif Require Import Base ModelBound ModelRanges ModelSets ModelAlgebra ModelValue ModelStep ModelIter
  Instances InstancesStep Spec SpecMap SpecFill SpecStep SpecIter Reach FillProofs StepProofs StepLemmas
  RustSyntax Source RustEval RustEnc RustTac RustRuns RustSays RustForever RustGives ClientProg RustProg ClientTypes RustProgEnds
  SpecProg ProgMeaning ProgComplete ProgClean
  PropertiesSource PropertiesSource2 PropertiesSource4 PropertiesSource6.
Open Scope Z_scope.
Open Scope string_scope.
Open Scope list_scope.

Section Meaning.
Context {T : Type} {PF : Platform} {OT : Ord T} {ST : Step T} {NU : Numbered T} {SL : StepLaws T} (t0 : T) (dflt : option T).
Notation tools := ["Rangetools"].
(** Variables at the start: elements, and sets the API can make, no [RangeInclusive] of them used up. *)
Definition starts (s : state T) : Prop :=
  Forall (fun p => match snd p with CSet v => api v /\ fresh v | CElt _ => True | CIter _ => False end) s.
(** What they mean. *)
Definition world_of (s : state T) : world T :=
  map (fun p => (fst p, match snd p with CSet v => MSet (kind_of v) (covers v) | CElt t => MElt t | CIter _ => MLeft false (fun _ => False) end)) s.
(** What is given is what is meant. *)
Definition stands_for (y : ClientProg.given T) (x : answer T) : Prop :=
  match y, x with
  | GSet v, ASet k P => kind_of v = k /\ (forall p, covers v p <-> P p) /\ (forall t, mem v t <-> P (point t))
  | GBool b, ATruth Q => b = true <-> Q
  | _, _ => False
  end.

Lemma rel_start (s : state T) : starts s -> rel s (world_of s).
Proof.
  induction 1 as [|[x c] s H _ IH]; constructor; [|exact IH]. split; [reflexivity|]. cbn [snd] in *. destruct c as [v|t|i]; cbn [means snd]; [|reflexivity|contradiction].
  destruct H as [A F]. split; [exact A|]. split; [exact F|]. split; [reflexivity|]. intros p. reflexivity.
Qed.
Lemma stands_of (v : value T) k P : stands v k P -> stands_for (GSet v) (ASet k P).
Proof. intros (_ & _ & K & C). split; [exact K|]. split; [exact C|]. intros t. rewrite <- C. symmetry. apply covers_point. Qed.
Lemma fin_ok (s : state T) w f x : rel s w -> mfin w f = Some x -> exists y, fin_val s f = done y /\ stands_for y x.
Proof.
  intros H E. destruct f as [a|c]; cbn [mfin fin_val] in *.
  - destruct (mset w a) as [[k P]|] eqn:M; [|discriminate]. injection E as <-. destruct (mset_ok _ _ _ _ _ H M) as (v & -> & Sv).
    eexists. split; [reflexivity|]. exact (stands_of _ _ _ Sv).
  - destruct (mcond w c) as [Q|] eqn:M; [|discriminate]. injection E as <-. destruct (mcond_ok t0 _ _ _ _ H M) as (b & -> & Sb).
    eexists. split; [reflexivity|]. exact Sb.
Qed.

(** The model does what is meant: a value that stands for the meaning, or a panic the meaning allows. *)
Theorem C74_model (s : state T) (b : block) (f : fin) (r : result (ClientProg.given T)) : starts s -> prun Debug s b f r ->
  exists q, mprog (world_of s) b f q /\
    match q with
    | Some (Ret x) => exists y, r = Some (Ret y) /\ stands_for y x
    | Some Panic => r = Some Panic
    | Some Diverge => False
    | None => True
    end.
Proof.
  intros St R. pose proof (rel_start s St) as H. inversion R as [s' r' B F|s' B|r0 r' B F]; subst; destruct (proj1 (sound t0) _ _ _ B _ H) as (q & M & A).
  - destruct q as [[[e w']| |]|]; cbn [agree] in A; try contradiction; try discriminate A.
    + destruct A as [A1 A2]. cbn [fst snd] in *. subst e. destruct (mfin w' f) as [x|] eqn:Ff.
      * destruct (fin_ok _ _ _ _ A2 Ff) as (y & E & Sy). exists (done x). split; [eapply mp_through; eauto|]. exists y. now split.
      * exists None. split; [eapply mp_none; eauto|exact Logic.I].
    + exists None. split; [eapply mp_stop; [exact M|constructor]|exact Logic.I].
  - destruct q as [[[e w']| |]|]; cbn [agree] in A; try contradiction; try discriminate A.
    + destruct A as [A1 A2]. cbn [fst snd] in *. subst e. exists None. split; [eapply mp_broken; eauto|exact Logic.I].
    + exists None. split; [eapply mp_stop; [exact M|constructor]|exact Logic.I].
  - destruct q as [[[e w']| |]|]; cbn [agree] in A; try contradiction.
    + inversion F; subst; destruct A.
    + subst r0. inversion F; subst. exists (Some Panic). split; [eapply mp_stop; [exact M|constructor]|reflexivity].
    + exists None. split; [eapply mp_stop; [exact M|constructor]|exact Logic.I].
Qed.
(** What is meant, the model comes to, but for a panic. *)
Theorem C74_model_ends (s : state T) (b : block) (f : fin) (x : answer T) : starts s -> mprog (world_of s) b f (done x) ->
  ~ mprog (world_of s) b f None -> prun Debug s b f (Some Panic) \/ exists y, prun Debug s b f (Some (Ret y)) /\ stands_for y x.
Proof.
  intros St M N. pose proof (rel_start s St) as H. inversion M as [w' x' B F| | |r0 r' B F]; subst; [|inversion F].
  destruct (proj1 (complete t0) _ _ _ B s _ H eq_refl) as (r & R & [->|([e s'] & -> & [A1 A2])]).
  - intros X. apply N. eapply mp_stop; [exact X|constructor].
  - left. eapply p_stop; [exact R|constructor].
  - cbn [fst snd] in *. subst e. right. destruct (fin_ok _ _ _ _ A2 F) as (y & E & Sy). exists y. split; [|exact Sy]. eapply p_through; eauto.
Qed.
(** A program means one thing. *)
Theorem C74_one_meaning (w : world T) (b : block) (f : fin) (x x' : answer T) : mprog w b f (done x) -> mprog w b f (done x') -> x = x'.
Proof.
  intros M M'. inversion M as [w1 x1 B F| | |r0 r' B F]; subst; [|inversion F]. inversion M' as [w2 x2 B' F'| | |r0 r' B' F']; subst; [|inversion F'].
  pose proof (proj1 one_meaning _ _ _ B _ _ eq_refl B') as E. injection E as <-. congruence.
Qed.
(** Release builds give the values debug builds give. *)
Theorem C74_model_release (s : state T) (b : block) (f : fin) (y : ClientProg.given T) :
  prun Debug s b f (Some (Ret y)) -> prun Release s b f (Some (Ret y)).
Proof.
  intros R. inversion R as [s' r' B F|s' B|r0 r' B F]; subst; [|inversion F]. eapply p_through; [|exact F].
  exact (proj1 runs_release _ _ _ B _ eq_refl).
Qed.

(** The same for the text of the source. *)
Theorem C74_source (s : state T) (g : ctx) (b : block) (f : fin) (o : outcome (val T)) : steps_end T Debug -> starts s -> has s g -> ptyped g b f = true ->
  says dflt Debug tools (ptext b f) (enc_state s) o ->
  exists q, mprog (world_of s) b f q /\
    match q with
    | Some (Ret x) => exists y, o = Ret (enc_given y) /\ stands_for y x
    | Some Panic => o = Panic
    | Some Diverge => False
    | None => True
    end.
Proof.
  intros SE St H P S. apply (C73_typed dflt Debug s g b f SE H P) in S as (o' & R & ->).
  destruct (C74_model s b f _ St R) as (q & M & A). exists q. split; [exact M|]. destruct q as [[x| |]|]; auto.
  - destruct A as (y & E & Sy). injection E as ->. exists y. now split.
  - now injection A as ->.
Qed.
Theorem C74_source_ends (s : state T) (b : block) (f : fin) (x : answer T) : starts s -> mprog (world_of s) b f (done x) ->
  ~ mprog (world_of s) b f None ->
  says dflt Debug tools (ptext b f) (enc_state s) Panic \/
  exists y, says dflt Debug tools (ptext b f) (enc_state s) (Ret (enc_given y)) /\ stands_for y x.
Proof.
  intros St M N. destruct (C74_model_ends s b f x St M N) as [R|(y & R & Sy)]; apply (C73_programs dflt Debug) in R; [now left|right; exists y; now split].
Qed.
Theorem C74_source_release (s : state T) (g : ctx) (b : block) (f : fin) (v : val T) : steps_end T Debug -> has s g -> ptyped g b f = true ->
  says dflt Debug tools (ptext b f) (enc_state s) (Ret v) -> says dflt Release tools (ptext b f) (enc_state s) (Ret v).
Proof.
  intros SE H P S. apply (C73_typed dflt Debug s g b f SE H P) in S as (o' & R & E).
  destruct o' as [y| |]; try discriminate E. injection E as ->. apply C74_model_release in R. exact (C73_programs dflt Release _ _ _ _ R).
Qed.

(** Nothing is left open for a well-typed program without the intersection of two
    [LowerBoundedSet]s, where the element type has at most [usize::MAX] consecutive elements. *)
Lemma mhas_world (s : state T) g : starts s -> has s g -> mhas (world_of s) g.
Proof.
  intros St H. revert St. induction H as [|[x c] [y t] s g [E F] H IH]; intros St; [constructor|]. inversion St as [|? ? Sc]; subst. constructor; [|now apply IH].
  cbn [fst snd] in *. split; [exact E|]. destruct c, t; cbn [fits mfits snd] in *; try contradiction; auto.
Qed.
Theorem C74_nothing_open (s : state T) (g : ctx) (b : block) (f : fin) : ~ big (fun _ : T => True) -> starts s -> has s g ->
  ptyped g b f = true -> pclean g b f = true -> ~ mprog (world_of s) b f None.
Proof. intros Nb St H P C. exact (prog_said _ g b f Nb (mhas_world s g St H) P C). Qed.

(** So the text gives what is meant or panics where it may; and it ends if the meaning does. *)
Theorem C74_right (s : state T) (g : ctx) (b : block) (f : fin) : steps_end T Debug -> ~ big (fun _ : T => True) -> starts s -> has s g ->
  ptyped g b f = true -> pclean g b f = true ->
  (forall o, says dflt Debug tools (ptext b f) (enc_state s) o ->
     (o = Panic /\ mprog (world_of s) b f (Some Panic)) \/
     exists x y, mprog (world_of s) b f (done x) /\ o = Ret (enc_given y) /\ stands_for y x) /\
  (forall x, mprog (world_of s) b f (done x) ->
     ~ never dflt Debug tools (ptext b f) (enc_state s) /\
     forall y, says dflt Debug tools (ptext b f) (enc_state s) (Ret (enc_given y)) -> stands_for y x).
Proof.
  intros SE Nb St H P C. pose proof (C74_nothing_open s g b f Nb St H P C) as No. split.
  - intros o S. destruct (C74_source s g b f o SE St H P S) as (q & M & A). destruct q as [[x| |]|]; try contradiction.
    + destruct A as (y & E & Sy). right. exists x, y. auto.
    + left. auto.
  - intros x M. split.
    + intros Nv. destruct (C74_source_ends s b f x St M No) as [S|(y & S & _)]; exact (C72_never_excludes _ _ _ _ _ _ Nv S).
    + intros y S. destruct (C74_source s g b f _ SE St H P S) as (q & M' & A). destruct q as [[x'| |]|]; try contradiction; try discriminate A.
      destruct A as (y' & E & Sy). injection E as E. apply enc_given_inj in E as <-. now rewrite (C74_one_meaning _ _ _ _ _ M M').
Qed.
End Meaning.

(** Element types with at most [usize::MAX] elements: the integer types narrower than [usize], and char but on 16-bit platforms. *)
Section Few.
Context {T : Type} {PF : Platform} {OT : Ord T} {ST : Step T} {NU : Numbered T} {SL : StepLaws T}.
Lemma sorted_few (lo hi : Z) (l : list T) : StronglySorted lt l -> (forall t, In t l -> lo <= idx t <= hi) -> Z.of_nat (length l) <= Z.max 0 (hi - lo + 1).
Proof.
  intros S. revert lo. induction S as [|x l S IH F]; intros lo B; [cbn; lia|]. rewrite Forall_forall in F.
  pose proof (B x (or_introl eq_refl)) as Bx. specialize (IH (idx x + 1)). cbn [length]. rewrite Nat2Z.inj_succ.
  assert (Z.of_nat (length l) <= Z.max 0 (hi - (idx x + 1) + 1)); [|lia]. apply IH. intros t I. specialize (F t I). apply lt_idx in F.
  specialize (B t (or_intror I)). lia.
Qed.
Lemma few (lo hi : Z) : (forall t : T, lo <= idx t <= hi) -> hi - lo + 1 <= usize_max -> 0 <= usize_max -> ~ big (fun _ : T => True).
Proof. intros B H U (a & b & l & [S _] & _ & L). pose proof (sorted_few lo hi l S (fun t _ => B t)). lia. Qed.
End Few.
Theorem C74_few_integers (PF : Platform) (ty : ity) : bits ty < usize_bits -> ~ big (fun _ : mint ty => True).
Proof.
  intros L. apply (few (imin ty) (imax ty)).
  - intros [z H]. cbn [idx NumberedMint mval]. unfold ModelStep.fits in H. lia.
  - unfold imin, imax, usize_max in *. destruct PF as [[]], ty; cbn in *; lia.
  - unfold usize_max, usize_bits. destruct ptr_width; cbn; lia.
Qed.
Theorem C74_few_chars (PF : Platform) : 16 < usize_bits -> ~ big (fun _ : chr => True).
Proof.
  intros L. apply (few 0 (cidx 0x10FFFF)).
  - exact cidx_range.
  - unfold usize_max in *. destruct PF as [[]]; cbn in *; lia.
  - unfold usize_max, usize_bits. destruct ptr_width; cbn; lia.
Qed.
Print Assumptions C74_few_chars.

Definition c74_all := (@C74_model, @C74_model_ends, @C74_one_meaning, @C74_model_release, @C74_source, @C74_source_ends, @C74_source_release,
  @C74_nothing_open, @C74_right, @C74_few_integers).
Print Assumptions c74_all.

(** ** Examples, on u8 *)
#[local] Existing Instance pf64.
Lemma starts_elts l : starts (elts l).
Proof. induction l; constructor; [exact Logic.I|assumption]. Qed.
Lemma u8_few : ~ big (fun _ : U => True).
Proof. apply C74_few_integers. reflexivity. Qed.

Lemma points_le (a b : U) : le (point a) (point b) <-> idx a <= idx b.
Proof. rewrite <- le_idx. unfold le. destruct (keeps_point a b) as [E _]. now rewrite E. Qed.
(** [let mut acc = (p..p).to_set(); for t in (p..=p).to_inner() { acc = acc.union(t..=t); } acc],
    its meaning written out. *)
Definition single : block :=
  BLet "acc" (XSet (XRange "p" "p")) (BFor "t" (XInner (XIncl "p" "p")) (BPut "acc" (XUnion (XVar "acc") (XIncl "t" "t")) BEnd) BEnd).
Definition single_points (z : Z) : points U :=
  fun p => (le (point (u z)) p /\ lt p (point (u z))) \/ (le (point (u z)) p /\ le p (point (u z))).
Example C74_single_ex :
  ptyped (elts_ctx [("p", 7)]) single (FSet (XVar "acc")) = true /\ pclean (elts_ctx [("p", 7)]) single (FSet (XVar "acc")) = true /\
  mprog (world_of (elts [("p", 7)])) single (FSet (XVar "acc")) (done (ASet KBoundedSet (single_points 7))) /\
  says None Debug ["Rangetools"] (ptext single (FSet (XVar "acc"))) (enc_state (elts [("p", 7)])) (Ret (enc_value (VBS (BS [one 7])))) /\
  stands_for (GSet (VBS (BS [one 7]))) (ASet KBoundedSet (single_points 7)).
Proof.
  assert (M : mprog (world_of (elts [("p", 7)])) single (FSet (XVar "acc")) (done (ASet KBoundedSet (single_points 7)))).
  { eapply mp_through.
    - eapply m_let; [reflexivity|]. eapply m_for; [reflexivity|reflexivity| |apply m_end].
      eapply l_turn with (x := u 7); [reflexivity| | | |].
      + split; [split; apply points_le, Z.le_refl|]. intros t [A _]. apply points_le in A. rewrite le_idx. exact A.
      + intros G. specialize (G (u 8)). vm_compute in G. now apply G.
      + eapply m_put; [reflexivity|reflexivity|apply m_end].
      + eapply l_end; [reflexivity|]. intros t [[_ A] B]. apply points_le in A. rewrite lt_idx in B. exact (Zlt_not_le _ _ B A).
    - reflexivity. }
  assert (S : says None Debug ["Rangetools"] (ptext single (FSet (XVar "acc"))) (enc_state (elts [("p", 7)])) (Ret (enc_value (VBS (BS [one 7]))))).
  { apply exec_runs with (fuel := 300%nat); [vm_compute; reflexivity|discriminate]. }
  split; [reflexivity|split; [reflexivity|split; [exact M|split; [exact S|]]]].
  eapply (C74_right (u 0) None _ _ single (FSet (XVar "acc")) (C70_int_steps_end U8 Debug) u8_few (starts_elts _) (has_elts [("p", 7)])
    eq_refl eq_refl); [exact M|exact S].
Qed.
(** The program of C73: it means the set it gives. *)
Example C74_gather_ex : exists P,
  mprog (world_of (elts gather_vars)) gather (FSet (XVar "acc")) (done (ASet KBoundedSet P)) /\
  (forall t, P (point t) <-> In t [u 1; u 2; u 4; u 8; u 9]) /\
  says None Release ["Rangetools"] (ptext gather (FSet (XVar "acc"))) (enc_state (elts gather_vars))
    (Ret (enc_value (VBS (BS [one 1; one 2; one 4; one 8; one 9])))).
Proof.
  destruct C73_gather_ex as (Ty & _ & S & _).
  destruct (C74_right (u 0) None _ _ gather (FSet (XVar "acc")) (C70_int_steps_end U8 Debug) u8_few (starts_elts _) (has_elts gather_vars)
    Ty eq_refl) as [X _]. destruct (X _ S) as [[X' _]|(x & y & M & E & Sy)]; [discriminate|].
  injection E as E. change (enc_given (GSet (VBS (BS [one 1; one 2; one 4; one 8; one 9]))) = enc_given y) in E. apply enc_given_inj in E as <-.
  destruct x as [k P|Q]; [|destruct Sy]. destruct Sy as (<- & _ & Sy). exists P. split; [exact M|]. split.
  - intros t. rewrite <- Sy. assert (O : forall z, in_range (one z) t <-> t = u z).
    { intros z. unfold in_range. cbn [above below one br_start br_end]. rewrite !le_idx. split; [intros; apply idx_inj; lia|intros ->; lia]. }
    cbn [mem bs_ranges]. unfold in_pieces. split.
    + intros (r & I & J). cbn [In] in I. repeat (destruct I as [<-|I]; [apply O in J as ->; cbn [In]; tauto|]). destruct I.
    + cbn [In]. intros I. repeat (destruct I as [<-|I]; [eexists; split; [|apply O; reflexivity]; cbn [In]; tauto|]). destruct I.
  - exact (C74_source_release None _ _ gather (FSet (XVar "acc")) _ (C70_int_steps_end U8 Debug) (has_elts gather_vars) Ty S).
Qed.
(** The elements taken at the front before the two ends of the iterator meet. *)
Example C74_meet_ex : exists P,
  mprog (world_of (elts (meet_vars 0))) meet (FSet (XVar "acc")) (done (ASet KBoundedSet P)) /\
  (forall t, P (point t) <-> In t [u 1; u 2; u 3; u 4]) /\
  says None Release ["Rangetools"] (ptext meet (FSet (XVar "acc"))) (enc_state (elts (meet_vars 0)))
    (Ret (enc_value (VBS (BS [one 1; one 2; one 3; one 4])))).
Proof.
  destruct C73_meet_ex as (Ty & S & _).
  destruct (C74_right (u 0) None _ _ meet (FSet (XVar "acc")) (C70_int_steps_end U8 Debug) u8_few (starts_elts _) (has_elts (meet_vars 0))
    Ty eq_refl) as [X _]. destruct (X _ S) as [[X' _]|(x & y & M & E & Sy)]; [discriminate|].
  injection E as E. change (enc_given (GSet (VBS (BS [one 1; one 2; one 3; one 4]))) = enc_given y) in E. apply enc_given_inj in E as <-.
  destruct x as [k P|Q]; [|destruct Sy]. destruct Sy as (<- & _ & Sy). exists P. split; [exact M|]. split.
  - intros t. rewrite <- Sy. assert (O : forall z, in_range (one z) t <-> t = u z).
    { intros z. unfold in_range. cbn [above below one br_start br_end]. rewrite !le_idx. split; [intros; apply idx_inj; lia|intros ->; lia]. }
    cbn [mem bs_ranges]. unfold in_pieces. split.
    + intros (r & I & J). cbn [In] in I. repeat (destruct I as [<-|I]; [apply O in J as ->; cbn [In]; tauto|]). destruct I.
    + cbn [In]. intros I. repeat (destruct I as [<-|I]; [eexists; split; [|apply O; reflexivity]; cbn [In]; tauto|]). destruct I.
  - exact (C74_source_release None _ _ meet (FSet (XVar "acc")) _ (C70_int_steps_end U8 Debug) (has_elts (meet_vars 0)) Ty S).
Qed.
(** [next_back] panics on the least element, which [next] takes:
    [let mut it = (z..=z).to_inner().into_iter(); match it.next_back() { Some(t) => {} _ => {} }]. *)
Example C74_back_panic_ex :
  let take back := BIter "it" (XInner (XIncl "z" "z")) (BNext back "t" "it" BEnd BEnd BEnd) in
  says None Debug ["Rangetools"] (ptext (take true) (FSet XFull)) (enc_state (elts [("z", 0)])) Panic /\
  mprog (world_of (elts [("z", 0)])) (take true) (FSet XFull) (Some Panic) /\
  says None Debug ["Rangetools"] (ptext (take false) (FSet XFull)) (enc_state (elts [("z", 0)])) (Ret (enc_value (VRangeFull mkRangeFull))).
Proof.
  intros take.
  assert (S : says None Debug ["Rangetools"] (ptext (take true) (FSet XFull)) (enc_state (elts [("z", 0)])) Panic).
  { apply exec_runs with (fuel := 300%nat); [vm_compute; reflexivity|discriminate]. }
  split; [exact S|]. split.
  - destruct (C74_right (u 0) None _ _ (take true) (FSet XFull) (C70_int_steps_end U8 Debug) u8_few (starts_elts _)
      (has_elts [("z", 0)]) eq_refl eq_refl) as [X _]. destruct (X _ S) as [[_ M]|(x & y & _ & E & _)]; [exact M|discriminate].
  - apply exec_runs with (fuel := 300%nat); [vm_compute; reflexivity|discriminate].
Qed.
(** Panics the meaning allows: [for t in (..=z).complement() {}] where [z] is the greatest,
    and [for t in (p..).to_inner() {}]. *)
Example C74_panic_ex :
  says None Debug ["Rangetools"] (ptext (BFor "t" (XCompl (XToIncl "z")) BEnd BEnd) (FSet XFull)) (enc_state (elts [("z", 255)])) Panic /\
  mprog (world_of (elts [("z", 255)])) (BFor "t" (XCompl (XToIncl "z")) BEnd BEnd) (FSet XFull) (Some Panic) /\
  mprog (world_of (elts [("p", 254)])) (idle BEnd) (FCond (QSame "p" "p")) (Some Panic).
Proof.
  assert (S : says None Debug ["Rangetools"] (ptext (BFor "t" (XCompl (XToIncl "z")) BEnd BEnd) (FSet XFull)) (enc_state (elts [("z", 255)])) Panic).
  { apply exec_runs with (fuel := 300%nat); [vm_compute; reflexivity|discriminate]. }
  assert (S' : says None Debug ["Rangetools"] (ptext (idle BEnd) (FCond (QSame "p" "p"))) (enc_state (elts [("p", 254)])) Panic).
  { apply exec_runs with (fuel := 300%nat); [vm_compute; reflexivity|discriminate]. }
  split; [exact S|]. split.
  - destruct (C74_right (u 0) None _ _ (BFor "t" (XCompl (XToIncl "z")) BEnd BEnd) (FSet XFull) (C70_int_steps_end U8 Debug) u8_few (starts_elts _)
      (has_elts [("z", 255)]) eq_refl eq_refl) as [X _]. destruct (X _ S) as [[_ M]|(x & y & _ & E & _)]; [exact M|discriminate].
  - destruct (C74_right (u 0) None _ _ (idle BEnd) (FCond (QSame "p" "p")) (C70_int_steps_end U8 Debug) u8_few (starts_elts _)
      (has_elts [("p", 254)]) eq_refl eq_refl) as [X _]. destruct (X _ S') as [[_ M]|(x & y & _ & E & _)]; [exact M|discriminate].
Qed.
(** Why the intersection of two [LowerBoundedSet]s is left open: an element of both is lost. *)
Definition low (p q r : string) : sexp := XUnion (XRange p q) (XFrom r).
Definition low_vars : list (string * Z) := [("a", 1); ("b", 3); ("c", 10); ("d", 20); ("e", 30); ("f", 40); ("x", 25)].
Example C74_open_ex :
  let has_x a := QHas a "x" in let run c o := says None Debug ["Rangetools"] (ptext BEnd (FCond c)) (enc_state (elts low_vars)) (Ret (DBool o)) in
  ptyped (elts_ctx low_vars) BEnd (FCond (has_x (XInter (low "a" "b" "c") (low "d" "e" "f")))) = true /\
  pclean (elts_ctx low_vars) BEnd (FCond (has_x (XInter (low "a" "b" "c") (low "d" "e" "f")))) = false /\
  run (has_x (low "a" "b" "c")) true /\ run (has_x (low "d" "e" "f")) true /\
  run (has_x (XInter (low "a" "b" "c") (low "d" "e" "f"))) false /\ run (has_x (XInter (low "d" "e" "f") (low "a" "b" "c"))) true.
Proof.
  cbv zeta. repeat split; apply exec_runs with (fuel := 300%nat); try discriminate; vm_compute; reflexivity.
Qed.
