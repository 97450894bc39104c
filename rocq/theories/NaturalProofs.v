(** The operations see the endpoints only through comparisons: replacing the
    endpoints by others in the same order commutes with everything. *)
From Coq Require Import Lia.
From Verif Require Import Base ModelBound ModelRanges ModelSets ModelAlgebra ModelValue SpecMap.

Section NaturalProofs.
Context {T U : Type} {OT : Ord T} {OU : Ord U} (f : T -> U) (KO : keeps_order f).
Local Notation br := (map_br f).
Local Notation lbr := (map_lbr f).
Local Notation ubr := (map_ubr f).
Local Notation bs := (map_bs f).
Local Notation lbs := (map_lbs f).
Local Notation ubs := (map_ubs f).
Local Notation pus := (map_pus f).
Local Notation us := (map_us f).
Local Notation val := (map_value f).

(** ** Plumbing *)
Lemma onto_bind {A B C D : Type} (g : A -> B) (h : C -> D) (m : outcome A) (k : A -> outcome C) (k' : B -> outcome D) :
  (forall x, k' (g x) = onto h (k x)) -> (bind (onto g m) k') = onto h (bind m k).
Proof. intros H. destruct m; cbn [bind onto]; auto. Qed.
Lemma onto_foldM {A B C D : Type} (g : A -> B) (h : C -> D) (step : A -> C -> outcome A) (step' : B -> D -> outcome B) (l : list C) (s : A) :
  (forall s x, step' (g s) (h x) = onto g (step s x)) -> foldM step' (map h l) (g s) = onto g (foldM step l s).
Proof.
  intros H. revert s. induction l as [|x l IH]; intros s; cbn [foldM map]; [reflexivity|]. rewrite H. apply onto_bind. exact IH.
Qed.
Lemma position_map {A B : Type} (h : A -> B) (p : A -> bool) (q : B -> bool) (l : list A) :
  (forall x, q (h x) = p x) -> position q (map h l) = position p l.
Proof. intros H. induction l as [|x l IH]; cbn [position map]; [reflexivity|]. rewrite H, IH. reflexivity. Qed.
Lemma index_map {A B : Type} (h : A -> B) (l : list A) i : vd_index (map h l) i = onto h (vd_index l i).
Proof. unfold vd_index. rewrite nth_error_map. destruct (nth_error l i); reflexivity. Qed.
Lemma remove_map {A B : Type} (h : A -> B) (l : list A) i :
  vd_remove (map h l) i = (option_map h (fst (vd_remove l i)), map h (snd (vd_remove l i))).
Proof.
  unfold vd_remove. rewrite nth_error_map. destruct (nth_error l i); cbn [option_map fst snd]; [|reflexivity].
  rewrite map_app, firstn_map, <- skipn_map. reflexivity.
Qed.
Lemma insert_map {A B : Type} (h : A -> B) (l : list A) i x : vd_insert (map h l) i (h x) = onto (map h) (vd_insert l i x).
Proof.
  unfold vd_insert. rewrite map_length. destruct (Nat.leb i (length l)); cbn [onto]; [|reflexivity].
  rewrite map_app, firstn_map. cbn [map]. rewrite <- skipn_map. reflexivity.
Qed.
Lemma back_map {A B : Type} (h : A -> B) (l : list A) : vd_back (map h l) = option_map h (vd_back l).
Proof. unfold vd_back, vd_front. rewrite <- map_rev. destruct (rev l); reflexivity. Qed.
Lemma front_map {A B : Type} (h : A -> B) (l : list A) : vd_front (map h l) = option_map h (vd_front l).
Proof. destruct l; reflexivity. Qed.
Lemma pop_back_map {A B : Type} (h : A -> B) (l : list A) :
  vd_pop_back (map h l) = (option_map h (fst (vd_pop_back l)), map h (snd (vd_pop_back l))).
Proof. unfold vd_pop_back. rewrite <- map_rev. destruct (rev l); cbn [map option_map fst snd]; [reflexivity|]. rewrite map_rev. reflexivity. Qed.
Lemma pop_front_map {A B : Type} (h : A -> B) (l : list A) :
  vd_pop_front (map h l) = (option_map h (fst (vd_pop_front l)), map h (snd (vd_pop_front l))).
Proof. destruct l; reflexivity. Qed.
Lemma unwrap_map {A B : Type} (h : A -> B) (o : option A) : unwrap (option_map h o) = onto h (unwrap o).
Proof. destruct o; reflexivity. Qed.
Lemma filter_map_comm {A B : Type} (h : A -> B) (p : A -> bool) (q : B -> bool) (l : list A) :
  (forall x, q (h x) = p x) -> filter q (map h l) = map h (filter p l).
Proof. intros H. induction l as [|x l IH]; cbn [filter map]; [reflexivity|]. rewrite H. destruct (p x); cbn [map]; rewrite IH; reflexivity. Qed.
Lemma forallb_map_comm {A B : Type} (h : A -> B) (p : A -> bool) (q : B -> bool) (l : list A) :
  (forall x, q (h x) = p x) -> forallb q (map h l) = forallb p l.
Proof. intros H. induction l as [|x l IH]; cbn [forallb map]; [reflexivity|]. rewrite H, IH. reflexivity. Qed.
Lemma existsb_map_comm {A B : Type} (h : A -> B) (p : A -> bool) (q : B -> bool) (l : list A) :
  (forall x, q (h x) = p x) -> existsb q (map h l) = existsb p l.
Proof. intros H. induction l as [|x l IH]; cbn [existsb map]; [reflexivity|]. rewrite H, IH. reflexivity. Qed.

(** ** Comparisons *)
Lemma n_cmp a b : cmp (f a) (f b) = cmp a b. Proof. apply KO. Qed.
Lemma n_teq a b : teq (f a) (f b) = teq a b. Proof. apply KO. Qed.
Lemma n_pcmp a b : t_partial_cmp (f a) (f b) = t_partial_cmp a b. Proof. unfold t_partial_cmp. rewrite n_cmp. reflexivity. Qed.
Lemma n_lt a b : t_lt (f a) (f b) = t_lt a b. Proof. unfold t_lt. rewrite n_pcmp. reflexivity. Qed.
Lemma n_le a b : t_le (f a) (f b) = t_le a b. Proof. unfold t_le. rewrite n_pcmp. reflexivity. Qed.
Lemma n_gt a b : t_gt (f a) (f b) = t_gt a b. Proof. unfold t_gt. rewrite n_pcmp. reflexivity. Qed.
Lemma n_ge a b : t_ge (f a) (f b) = t_ge a b. Proof. unfold t_ge. rewrite n_pcmp. reflexivity. Qed.
Lemma n_lbp x y : lb_partial_cmp (map_lb f x) (map_lb f y) = lb_partial_cmp x y.
Proof. destruct x as [[a|a]], y as [[b|b]]; unfold lb_partial_cmp; cbn; rewrite ?n_teq, ?n_pcmp; reflexivity. Qed.
Lemma n_ubp x y : ub_partial_cmp (map_ub f x) (map_ub f y) = ub_partial_cmp x y.
Proof. destruct x as [[a|a]], y as [[b|b]]; unfold ub_partial_cmp; cbn; rewrite ?n_teq, ?n_pcmp; reflexivity. Qed.
Lemma n_lb_gt x y : lb_gt (map_lb f x) (map_lb f y) = lb_gt x y. Proof. unfold lb_gt. rewrite n_lbp. reflexivity. Qed.
Lemma n_lb_max x y : lb_max (map_lb f x) (map_lb f y) = map_lb f (lb_max x y).
Proof. unfold lb_max, lb_cmp. rewrite n_lbp. destruct (lb_partial_cmp x y) as [[]|]; reflexivity. Qed.
Lemma n_lb_min x y : lb_min (map_lb f x) (map_lb f y) = map_lb f (lb_min x y).
Proof. unfold lb_min, lb_cmp. rewrite n_lbp. destruct (lb_partial_cmp x y) as [[]|]; reflexivity. Qed.
Lemma n_ub_max x y : ub_max (map_ub f x) (map_ub f y) = map_ub f (ub_max x y).
Proof. unfold ub_max, ub_cmp. rewrite n_ubp. destruct (ub_partial_cmp x y) as [[]|]; reflexivity. Qed.
Lemma n_ub_min x y : ub_min (map_ub f x) (map_ub f y) = map_ub f (ub_min x y).
Proof. unfold ub_min, ub_cmp. rewrite n_ubp. destruct (ub_partial_cmp x y) as [[]|]; reflexivity. Qed.

(** ** Ranges *)
Lemma n_br_empty r : br_is_empty (br r) = br_is_empty r.
Proof. destruct r as [[[a|a]] [[b|b]]]; unfold br_is_empty; cbn; rewrite ?n_ge, ?n_gt, ?n_cmp; reflexivity. Qed.
Lemma n_br_br a b : br_inter_br (br a) (br b) = br (br_inter_br a b).
Proof. unfold br_inter_br, br_new, map_br. cbn [br_start br_end]. rewrite n_lb_max, n_ub_min. reflexivity. Qed.
Lemma n_br_lbr a b : br_inter_lbr (br a) (lbr b) = br (br_inter_lbr a b).
Proof. unfold br_inter_lbr, br_new, map_br, map_lbr. cbn [br_start br_end lbr_start]. rewrite n_lb_max. reflexivity. Qed.
Lemma n_br_ubr a b : br_inter_ubr (br a) (ubr b) = br (br_inter_ubr a b).
Proof. unfold br_inter_ubr, br_new, map_br, map_ubr. cbn [br_start br_end ubr_end]. rewrite n_ub_min. reflexivity. Qed.
Lemma n_lbr_br a b : lbr_inter_br (lbr a) (br b) = br (lbr_inter_br a b).
Proof. apply n_br_lbr. Qed.
Lemma n_ubr_br a b : ubr_inter_br (ubr a) (br b) = br (ubr_inter_br a b).
Proof. apply n_br_ubr. Qed.
Lemma n_lbr_lbr a b : lbr_inter_lbr (lbr a) (lbr b) = lbr (lbr_inter_lbr a b).
Proof. unfold lbr_inter_lbr, lbr_new, map_lbr. cbn [lbr_start]. rewrite n_lb_max. reflexivity. Qed.
Lemma n_ubr_ubr a b : ubr_inter_ubr (ubr a) (ubr b) = ubr (ubr_inter_ubr a b).
Proof. unfold ubr_inter_ubr, ubr_new, map_ubr. cbn [ubr_end]. rewrite n_ub_min. reflexivity. Qed.
Lemma n_lbr_ubr a b : lbr_inter_ubr (lbr a) (ubr b) = br (lbr_inter_ubr a b).
Proof. reflexivity. Qed.
Lemma n_ubr_lbr a b : ubr_inter_lbr (ubr a) (lbr b) = br (ubr_inter_lbr a b).
Proof. reflexivity. Qed.
Lemma n_i_br_br a b : br_intersects_br (br a) (br b) = br_intersects_br a b.
Proof. unfold br_intersects_br. rewrite n_br_br, n_br_empty. reflexivity. Qed.
Lemma n_i_ubr_br a b : ubr_intersects_br (ubr a) (br b) = ubr_intersects_br a b.
Proof. unfold ubr_intersects_br. rewrite n_ubr_br, n_br_empty. reflexivity. Qed.
Lemma n_i_lbr_br a b : lbr_intersects_br (lbr a) (br b) = lbr_intersects_br a b.
Proof. unfold lbr_intersects_br. rewrite n_lbr_br, n_br_empty. reflexivity. Qed.
Lemma n_i_ubr_lbr a b : ubr_intersects_lbr (ubr a) (lbr b) = ubr_intersects_lbr a b.
Proof. unfold ubr_intersects_lbr. rewrite n_ubr_lbr, n_br_empty. reflexivity. Qed.
Lemma n_combine a b : br_combine (br a) (br b) = onto br (br_combine a b).
Proof.
  unfold br_combine. rewrite !n_br_empty, n_i_br_br. destruct (br_is_empty b), (br_is_empty a), (br_intersects_br a b); cbn [onto]; try reflexivity.
  unfold br_new. unfold map_br at 1 2 3 4 5. cbn [br_start br_end]. rewrite n_lb_min, n_ub_max. reflexivity.
Qed.

(** ** Sets *)
Lemma n_add_fuel n l r : bs_add_range_fuel n (map br l) (br r) = onto (map br) (bs_add_range_fuel n l r).
Proof.
  revert l r. induction n as [|n IH]; intros l r; cbn [bs_add_range_fuel]; [reflexivity|].
  rewrite n_br_empty. destruct (negb (br_is_empty r)); [|reflexivity].
  rewrite (position_map br (fun range => br_intersects_br range r) (fun range => br_intersects_br range (br r))) by (intros; apply n_i_br_br).
  destruct (position _ l) as [i|].
  - rewrite index_map. apply onto_bind. intros x. rewrite n_combine. apply onto_bind. intros y.
    rewrite remove_map. cbn [snd]. apply IH.
  - rewrite (position_map br (fun range => lb_gt (br_start range) (br_start r)) (fun range => lb_gt (br_start range) (br_start (br r))))
      by (intros; apply n_lb_gt).
    rewrite map_length. apply insert_map.
Qed.
Lemma n_add_range s r : bs_add_range (bs s) (br r) = onto bs (bs_add_range s r).
Proof.
  unfold bs_add_range. unfold map_bs at 1 2. cbn [bs_ranges]. rewrite map_length, n_add_fuel. apply onto_bind. reflexivity.
Qed.
Lemma n_add_set s o : bs_add_set (bs s) (bs o) = onto bs (bs_add_set s o).
Proof. unfold bs_add_set. apply onto_foldM. intros. apply n_add_range. Qed.
Lemma n_empty : bs_empty = bs bs_empty. Proof. reflexivity. Qed.
Lemma n_from_br r : bs_from_br (br r) = bs (bs_from_br r).
Proof. unfold bs_from_br. rewrite n_br_empty. destruct (br_is_empty r); reflexivity. Qed.
Lemma n_bs_empty s : bs_is_empty (bs s) = bs_is_empty s.
Proof. unfold bs_is_empty. cbn [bs_ranges map_bs]. apply forallb_map_comm. apply n_br_empty. Qed.
Lemma n_retain l : retain_nonempty (map br l) = map br (retain_nonempty l).
Proof. unfold retain_nonempty. apply filter_map_comm. intros x. rewrite n_br_empty. reflexivity. Qed.
Lemma n_lbs_defrag_fuel n s : lbs_defragment_fuel n (lbs s) = onto lbs (lbs_defragment_fuel n s).
Proof.
  revert s. induction n as [|n IH]; intros s; cbn [lbs_defragment_fuel]; [reflexivity|].
  unfold map_lbs at 1. cbn [lbs_ranges]. rewrite n_bs_empty. destruct (negb (bs_is_empty (lbs_ranges s))); [|reflexivity].
  unfold map_lbs at 1. cbn [lbs_ranges map_bs bs_ranges]. rewrite back_map, unwrap_map. apply onto_bind. intros b.
  unfold map_lbs at 1. cbn [lbs_lbr]. rewrite n_br_lbr, n_br_empty. destruct (br_is_empty _); [reflexivity|].
  unfold map_lbs at 1. cbn [lbs_ranges map_bs bs_ranges]. rewrite pop_back_map. destruct (vd_pop_back (bs_ranges (lbs_ranges s))) as [p rest]. cbn [fst snd].
  rewrite unwrap_map. apply onto_bind. intros r. rewrite <- IH. f_equal. unfold map_lbs, map_lbr, map_br, map_bs. cbn [lbs_ranges lbs_lbr lbr_start br_start bs_ranges].
  rewrite n_lb_min. reflexivity.
Qed.
Lemma n_lbs_defrag s : lbs_defragment (lbs s) = onto lbs (lbs_defragment s).
Proof. unfold lbs_defragment. unfold map_lbs at 1. cbn [lbs_ranges map_bs bs_ranges]. rewrite map_length. apply n_lbs_defrag_fuel. Qed.
Lemma n_lbs_add_range s r : lbs_add_range (lbs s) (br r) = onto lbs (lbs_add_range s r).
Proof. unfold lbs_add_range. cbn [map_lbs lbs_ranges lbs_lbr]. rewrite n_add_range. apply onto_bind. intros x. apply (n_lbs_defrag (LBS x (lbs_lbr s))). Qed.
Lemma n_lbs_add_lbr s r : lbs_add_lower_bounded_range (lbs s) (lbr r) = onto lbs (lbs_add_lower_bounded_range s r).
Proof.
  unfold lbs_add_lower_bounded_range. rewrite <- n_lbs_defrag. f_equal. unfold map_lbs, map_lbr. cbn [lbs_ranges lbs_lbr lbr_start]. rewrite n_lb_min. reflexivity.
Qed.
Lemma n_lbs_add_set s o : lbs_add_set (lbs s) (bs o) = onto lbs (lbs_add_set s o).
Proof. unfold lbs_add_set. apply onto_foldM. intros. apply n_lbs_add_range. Qed.
Lemma n_ubs_defrag_fuel n s : ubs_defragment_fuel n (ubs s) = onto ubs (ubs_defragment_fuel n s).
Proof.
  revert s. induction n as [|n IH]; intros s; cbn [ubs_defragment_fuel]; [reflexivity|].
  unfold map_ubs at 1. cbn [ubs_ranges]. rewrite n_bs_empty. destruct (negb (bs_is_empty (ubs_ranges s))); [|reflexivity].
  unfold map_ubs at 1. cbn [ubs_ranges map_bs bs_ranges]. rewrite front_map, unwrap_map. apply onto_bind. intros b.
  unfold map_ubs at 1. cbn [ubs_ubr]. rewrite n_br_ubr, n_br_empty. destruct (br_is_empty _); [reflexivity|].
  unfold map_ubs at 1. cbn [ubs_ranges map_bs bs_ranges]. rewrite pop_front_map. destruct (vd_pop_front (bs_ranges (ubs_ranges s))) as [p rest]. cbn [fst snd].
  rewrite unwrap_map. apply onto_bind. intros r. rewrite <- IH. f_equal. unfold map_ubs, map_ubr, map_br, map_bs. cbn [ubs_ranges ubs_ubr ubr_end br_end bs_ranges].
  rewrite n_ub_max. reflexivity.
Qed.
Lemma n_ubs_defrag s : ubs_defragment (ubs s) = onto ubs (ubs_defragment s).
Proof. unfold ubs_defragment. unfold map_ubs at 1. cbn [ubs_ranges map_bs bs_ranges]. rewrite map_length. apply n_ubs_defrag_fuel. Qed.
Lemma n_ubs_add_range s r : ubs_add_range (ubs s) (br r) = onto ubs (ubs_add_range s r).
Proof. unfold ubs_add_range. cbn [map_ubs ubs_ranges ubs_ubr]. rewrite n_add_range. apply onto_bind. intros x. apply (n_ubs_defrag (UBS (ubs_ubr s) x)). Qed.
Lemma n_ubs_add_ubr s r : ubs_add_upper_bounded_range (ubs s) (ubr r) = onto ubs (ubs_add_upper_bounded_range s r).
Proof.
  unfold ubs_add_upper_bounded_range. rewrite <- n_ubs_defrag. f_equal. unfold map_ubs, map_ubr. cbn [ubs_ranges ubs_ubr ubr_end]. rewrite n_ub_max. reflexivity.
Qed.
Lemma n_ubs_add_set s o : ubs_add_set (ubs s) (bs o) = onto ubs (ubs_add_set s o).
Proof. unfold ubs_add_set. apply onto_foldM. intros. apply n_ubs_add_range. Qed.
Lemma n_pus_defrag_fuel n s : pus_defragment_fuel n (pus s) = onto pus (pus_defragment_fuel n s).
Proof.
  revert s. induction n as [|n IH]; intros s; cbn [pus_defragment_fuel]; [reflexivity|].
  change (pus_ubr (pus s)) with (ubr (pus_ubr s)). change (pus_lbr (pus s)) with (lbr (pus_lbr s)).
  change (bs_ranges (pus_ranges (pus s))) with (map br (bs_ranges (pus_ranges s))).
  rewrite (position_map br (fun r => ubr_intersects_br (pus_ubr s) r) (fun r => ubr_intersects_br (ubr (pus_ubr s)) r)) by (intros; apply n_i_ubr_br).
  destruct (position (fun r => ubr_intersects_br (pus_ubr s) r) _) as [i|].
  - rewrite remove_map. destruct (vd_remove (bs_ranges (pus_ranges s)) i) as [p rest]. cbn [fst snd]. rewrite unwrap_map. apply onto_bind. intros r.
    rewrite <- IH. f_equal. unfold map_pus, map_ubr, map_br, map_bs. cbn [pus_ranges pus_ubr pus_lbr ubr_end br_end bs_ranges].
    rewrite n_ub_max. reflexivity.
  - rewrite (position_map br (fun r => lbr_intersects_br (pus_lbr s) r) (fun r => lbr_intersects_br (lbr (pus_lbr s)) r)) by (intros; apply n_i_lbr_br).
    destruct (position (fun r => lbr_intersects_br (pus_lbr s) r) _) as [i|]; [|reflexivity].
    rewrite remove_map. destruct (vd_remove (bs_ranges (pus_ranges s)) i) as [p rest]. cbn [fst snd]. rewrite unwrap_map. apply onto_bind. intros r.
    rewrite <- IH. f_equal. unfold map_pus, map_lbr, map_br, map_bs. cbn [pus_ranges pus_ubr pus_lbr lbr_start br_start bs_ranges].
    rewrite n_lb_min. reflexivity.
Qed.
Lemma n_pus_defrag s : pus_defragment (pus s) = onto pus (pus_defragment s).
Proof. unfold pus_defragment. unfold map_pus at 1. cbn [pus_ranges map_bs bs_ranges]. rewrite map_length. apply n_pus_defrag_fuel. Qed.
Lemma n_map_piecewise s (g : PiecewiseUnboundedSet T -> outcome (PiecewiseUnboundedSet T)) g' :
  (forall p, g' (pus p) = onto pus (g p)) -> us_map_piecewise (us s) g' = onto us (us_map_piecewise s g).
Proof. intros H. destruct s as [|p]; cbn [us_map_piecewise map_us]; [reflexivity|]. rewrite H. apply onto_bind. reflexivity. Qed.
Lemma n_us_defrag s : us_defragment (us s) = onto us (us_defragment s).
Proof.
  unfold us_defragment. rewrite (n_map_piecewise s pus_defragment pus_defragment n_pus_defrag). apply onto_bind. intros [|p]; cbn [map_us]; [reflexivity|].
  unfold map_pus at 1 2. cbn [pus_ubr pus_lbr]. rewrite n_i_ubr_lbr. destruct (ubr_intersects_lbr _ _); reflexivity.
Qed.
Lemma n_us_add_range s r : us_add_range (us s) (br r) = onto us (us_add_range s r).
Proof.
  unfold us_add_range. erewrite n_map_piecewise; [apply onto_bind, n_us_defrag|].
  intros p. cbn beta. unfold map_pus at 1. cbn [pus_ranges]. rewrite n_add_range. apply onto_bind. reflexivity.
Qed.
Lemma n_us_add_lbr s r : us_add_lower_bounded_range (us s) (lbr r) = onto us (us_add_lower_bounded_range s r).
Proof.
  unfold us_add_lower_bounded_range. erewrite n_map_piecewise; [apply onto_bind, n_us_defrag|].
  intros p. cbn beta. cbn [onto]. f_equal. unfold map_pus, map_lbr. cbn [pus_ubr pus_ranges pus_lbr lbr_start]. rewrite n_lb_min. reflexivity.
Qed.
Lemma n_us_add_ubr s r : us_add_upper_bounded_range (us s) (ubr r) = onto us (us_add_upper_bounded_range s r).
Proof.
  unfold us_add_upper_bounded_range. erewrite n_map_piecewise; [apply onto_bind, n_us_defrag|].
  intros p. cbn beta. cbn [onto]. f_equal. unfold map_pus, map_ubr. cbn [pus_ubr pus_ranges pus_lbr ubr_end]. rewrite n_ub_max. reflexivity.
Qed.
Lemma n_us_add_set s o : us_add_set (us s) (bs o) = onto us (us_add_set s o).
Proof. unfold us_add_set. apply onto_foldM. intros. apply n_us_add_range. Qed.
Lemma n_us_add_us s o : us_add_unbounded_set (us s) (us o) = onto us (us_add_unbounded_set s o).
Proof.
  destruct o as [|p]; cbn [us_add_unbounded_set map_us]; [reflexivity|]. unfold map_pus. cbn [pus_ubr pus_ranges pus_lbr].
  rewrite n_us_add_lbr. apply onto_bind. intros x. rewrite n_us_add_ubr. apply onto_bind. intros y. rewrite n_us_add_set. apply onto_bind. intros z. apply n_us_defrag.
Qed.
Lemma n_us_new u l : us_new (ubr u) (lbr l) = us (us_new u l).
Proof. unfold us_new. rewrite n_ubr_lbr, n_br_empty. destruct (br_is_empty _); reflexivity. Qed.

(** ** Intersections *)
Lemma n_bs_br s o : bs_inter_br (bs s) (br o) = bs (bs_inter_br s o).
Proof.
  unfold bs_inter_br. unfold map_bs at 1 2. cbn [bs_ranges]. f_equal. rewrite <- n_retain, !map_map. f_equal. apply map_ext. intros x. apply n_br_br.
Qed.
Lemma n_bs_lbr s o : bs_inter_lbr (bs s) (lbr o) = bs (bs_inter_lbr s o).
Proof.
  unfold bs_inter_lbr. unfold map_bs at 1 2. cbn [bs_ranges]. f_equal. rewrite <- n_retain, !map_map. f_equal. apply map_ext. intros x. apply n_br_lbr.
Qed.
Lemma n_bs_ubr s o : bs_inter_ubr (bs s) (ubr o) = bs (bs_inter_ubr s o).
Proof.
  unfold bs_inter_ubr. unfold map_bs at 1 2. cbn [bs_ranges]. f_equal. rewrite <- n_retain, !map_map. f_equal. apply map_ext. intros x. apply n_br_ubr.
Qed.
Lemma n_bs_bs s o : bs_inter_bs (bs s) (bs o) = onto bs (bs_inter_bs s o).
Proof.
  unfold bs_inter_bs. rewrite n_empty. apply onto_foldM. intros x r. unfold br_inter_bs. rewrite n_bs_br. apply n_add_set.
Qed.
Lemma n_retained (s : BoundedSet T) : BS (retain_nonempty (bs_ranges (bs s))) = bs (BS (retain_nonempty (bs_ranges s))).
Proof. unfold map_bs. cbn [bs_ranges]. rewrite n_retain. reflexivity. Qed.
Lemma n_lbs_br s o : lbs_inter_br (lbs s) (br o) = onto bs (lbs_inter_br s o).
Proof.
  unfold lbs_inter_br. unfold map_lbs. cbn [lbs_lbr lbs_ranges]. rewrite n_lbr_br, n_from_br, n_bs_br. apply n_add_set.
Qed.
Lemma n_bs_lbs s o : bs_inter_lbs (bs s) (lbs o) = onto bs (bs_inter_lbs s o).
Proof.
  unfold bs_inter_lbs. change (lbs_lbr (lbs o)) with (lbr (lbs_lbr o)). rewrite n_bs_lbr. apply onto_foldM. intros x r. unfold br_inter_lbs.
  rewrite n_lbs_br. apply onto_bind. intros y. apply n_add_set.
Qed.
Lemma n_ubs_br s o : ubs_inter_br (ubs s) (br o) = onto bs (ubs_inter_br s o).
Proof.
  unfold ubs_inter_br. unfold map_ubs. cbn [ubs_ubr ubs_ranges]. rewrite n_ubr_br, n_from_br, n_retained, n_bs_br. apply n_add_set.
Qed.
Lemma n_bs_ubs s o : bs_inter_ubs (bs s) (ubs o) = onto bs (bs_inter_ubs s o).
Proof.
  unfold bs_inter_ubs. change (ubs_ubr (ubs o)) with (ubr (ubs_ubr o)). rewrite n_bs_ubr. apply onto_foldM. intros x r. unfold br_inter_ubs.
  rewrite n_ubs_br. apply onto_bind. intros y. apply n_add_set.
Qed.
Lemma n_lbs_lbr s o : lbs_inter_lbr (lbs s) (lbr o) = lbs (lbs_inter_lbr s o).
Proof. unfold lbs_inter_lbr, map_lbs. cbn [lbs_ranges lbs_lbr]. rewrite n_bs_lbr, n_lbr_lbr. reflexivity. Qed.
Lemma n_lbs_lbs s o : lbs_inter_lbs (lbs s) (lbs o) = onto lbs (lbs_inter_lbs s o).
Proof.
  unfold lbs_inter_lbs. change (lbs_lbr (lbs o)) with (lbr (lbs_lbr o)). change (lbs_ranges (lbs s)) with (bs (lbs_ranges s)).
  rewrite n_lbs_lbr, n_bs_lbs. apply onto_bind. intros x. apply n_lbs_add_set.
Qed.
Lemma n_lbs_ubr s o : lbs_inter_ubr (lbs s) (ubr o) = onto bs (lbs_inter_ubr s o).
Proof.
  unfold lbs_inter_ubr. unfold map_lbs. cbn [lbs_lbr lbs_ranges]. rewrite n_lbr_ubr, n_from_br, n_retained, n_bs_ubr, n_add_set.
  apply onto_bind. intros x. rewrite n_retained. reflexivity.
Qed.
Lemma n_ubs_lbr s o : ubs_inter_lbr (ubs s) (lbr o) = onto bs (ubs_inter_lbr s o).
Proof.
  unfold ubs_inter_lbr. unfold map_ubs. cbn [ubs_ubr ubs_ranges]. rewrite n_ubr_lbr, n_from_br, n_retained, n_bs_lbr. apply n_add_set.
Qed.
Lemma n_ubs_ubr s o : ubs_inter_ubr (ubs s) (ubr o) = onto ubs (ubs_inter_ubr s o).
Proof.
  unfold ubs_inter_ubr. change (ubs_ubr (ubs s)) with (ubr (ubs_ubr s)). change (ubs_ranges (ubs s)) with (bs (ubs_ranges s)).
  rewrite n_ubr_ubr, n_bs_ubr. apply (n_ubs_add_set (ubs_from_ubr (ubr_inter_ubr (ubs_ubr s) o))).
Qed.
Lemma n_lbs_ubs s o : lbs_inter_ubs (lbs s) (ubs o) = onto bs (lbs_inter_ubs s o).
Proof.
  unfold lbs_inter_ubs. change (ubs_ubr (ubs o)) with (ubr (ubs_ubr o)). change (ubs_ranges (ubs o)) with (bs (ubs_ranges o)).
  rewrite n_lbs_ubr. apply onto_bind. intros x. unfold lbs_inter_bs. rewrite n_bs_lbs. apply onto_bind. intros y.
  rewrite n_retained, n_add_set. apply onto_bind. intros z. rewrite n_retained. reflexivity.
Qed.
Lemma n_ubs_ubs s o : ubs_inter_ubs (ubs s) (ubs o) = onto ubs (ubs_inter_ubs s o).
Proof.
  unfold ubs_inter_ubs. change (ubs_ubr (ubs o)) with (ubr (ubs_ubr o)). change (ubs_ranges (ubs o)) with (bs (ubs_ranges o)).
  rewrite n_ubs_ubr. apply onto_bind. intros x. unfold ubs_inter_bs. rewrite n_bs_ubs. apply onto_bind. intros y. apply n_ubs_add_set.
Qed.
Lemma n_bs_us s o : bs_inter_us (bs s) (us o) = onto bs (bs_inter_us s o).
Proof.
  destruct o as [|[u r d]]; cbn [bs_inter_us map_us]; [reflexivity|]. unfold map_pus. cbn [pus_ubr pus_ranges pus_lbr].
  rewrite n_bs_ubr, n_bs_lbr, n_add_set. apply onto_bind. intros x. rewrite n_bs_bs. apply onto_bind. intros y. apply n_add_set.
Qed.
Lemma n_lbs_us s o : lbs_inter_us (lbs s) (us o) = onto lbs (lbs_inter_us s o).
Proof.
  destruct o as [|[u r d]]; cbn [lbs_inter_us map_us]; [reflexivity|]. unfold map_pus. cbn [pus_ubr pus_ranges pus_lbr].
  rewrite n_lbs_lbr, n_lbs_ubr. apply onto_bind. intros x. rewrite n_lbs_add_set. apply onto_bind. intros y.
  unfold lbs_inter_bs. rewrite n_bs_lbs. apply onto_bind. intros z. apply n_lbs_add_set.
Qed.
Lemma n_ubs_us s o : ubs_inter_us (ubs s) (us o) = onto ubs (ubs_inter_us s o).
Proof.
  destruct o as [|[u r d]]; cbn [ubs_inter_us map_us]; [reflexivity|]. unfold map_pus. cbn [pus_ubr pus_ranges pus_lbr].
  rewrite n_ubs_ubr. apply onto_bind. intros x. rewrite n_ubs_lbr. apply onto_bind. intros y. rewrite n_ubs_add_set. apply onto_bind. intros z.
  unfold ubs_inter_bs. rewrite n_bs_ubs. apply onto_bind. intros w. apply n_ubs_add_set.
Qed.
Lemma n_lbs_from d : lbs_from_lbr (lbr d) = lbs (lbs_from_lbr d). Proof. reflexivity. Qed.
Lemma n_ubs_from d : ubs_from_ubr (ubr d) = ubs (ubs_from_ubr d). Proof. reflexivity. Qed.
Lemma n_us_br s o : us_inter_br (us s) (br o) = onto bs (us_inter_br s o).
Proof. unfold us_inter_br. rewrite n_from_br. apply n_bs_us. Qed.
Lemma n_us_lbr s o : us_inter_lbr (us s) (lbr o) = onto lbs (us_inter_lbr s o).
Proof. unfold us_inter_lbr. rewrite n_lbs_from. apply n_lbs_us. Qed.
Lemma n_us_ubr s o : us_inter_ubr (us s) (ubr o) = onto ubs (us_inter_ubr s o).
Proof. unfold us_inter_ubr. rewrite n_ubs_from. apply n_ubs_us. Qed.

(** ** Unions *)
Lemma n_u_lbs_lbs s o : lbs_union_lbs (lbs s) (lbs o) = onto lbs (lbs_union_lbs s o).
Proof.
  unfold lbs_union_lbs, lbs_union_bs, bs_union_lbs. change (lbs_lbr (lbs o)) with (lbr (lbs_lbr o)). change (lbs_ranges (lbs o)) with (bs (lbs_ranges o)).
  rewrite n_lbs_add_lbr. apply onto_bind. intros x. apply n_lbs_add_set.
Qed.
Lemma n_u_ubs_ubs s o : ubs_union_ubs (ubs s) (ubs o) = onto ubs (ubs_union_ubs s o).
Proof.
  unfold ubs_union_ubs, ubs_union_bs, bs_union_ubs. change (ubs_ubr (ubs o)) with (ubr (ubs_ubr o)). change (ubs_ranges (ubs o)) with (bs (ubs_ranges o)).
  rewrite n_ubs_add_ubr. apply onto_bind. intros x. apply n_ubs_add_set.
Qed.
Lemma n_u_lbs_ubs s o : lbs_union_ubs (lbs s) (ubs o) = onto us (lbs_union_ubs s o).
Proof.
  unfold lbs_union_ubs, us_union_bs, bs_union_us. change (ubs_ubr (ubs o)) with (ubr (ubs_ubr o)). change (lbs_lbr (lbs s)) with (lbr (lbs_lbr s)).
  change (lbs_ranges (lbs s)) with (bs (lbs_ranges s)). change (ubs_ranges (ubs o)) with (bs (ubs_ranges o)).
  rewrite n_us_new, n_us_add_set. apply onto_bind. intros x. apply n_us_add_set.
Qed.
Lemma n_u_lbs_us s o : lbs_union_us (lbs s) (us o) = onto us (lbs_union_us s o).
Proof.
  unfold lbs_union_us, us_union_bs, bs_union_us. change (lbs_lbr (lbs s)) with (lbr (lbs_lbr s)). change (lbs_ranges (lbs s)) with (bs (lbs_ranges s)).
  rewrite n_us_add_lbr. apply onto_bind. intros x. apply n_us_add_set.
Qed.
Lemma n_u_ubs_us s o : ubs_union_us (ubs s) (us o) = onto us (ubs_union_us s o).
Proof.
  unfold ubs_union_us, us_union_bs, bs_union_us. change (ubs_ubr (ubs s)) with (ubr (ubs_ubr s)). change (ubs_ranges (ubs s)) with (bs (ubs_ranges s)).
  rewrite n_us_add_ubr. apply onto_bind. intros x. apply n_us_add_set.
Qed.
Lemma n_us_us s o : us_inter_us (us s) (us o) = onto us (us_inter_us s o).
Proof.
  destruct s as [|p]; [reflexivity|]. destruct o as [|q]; [reflexivity|].
  change (us (Piecewise q)) with (Piecewise (pus q)). unfold us_inter_us. change (us (Piecewise p)) with (Piecewise (pus p)) at 1.
  cbv beta iota. change (pus_ubr (pus q)) with (ubr (pus_ubr q)). change (pus_lbr (pus q)) with (lbr (pus_lbr q)). change (pus_ranges (pus q)) with (bs (pus_ranges q)).
  change (Piecewise (pus p)) with (us (Piecewise p)).
  rewrite n_us_ubr. apply onto_bind. intros x. rewrite n_us_lbr. apply onto_bind. intros y. unfold us_inter_bs. rewrite n_bs_us. apply onto_bind. intros z.
  unfold lbs_union_bs, bs_union_lbs. rewrite n_lbs_add_set. apply onto_bind. intros w. apply n_u_lbs_ubs.
Qed.

(** ** Complements *)
Lemma n_lbr_compl d : lbr_complement (lbr d) = ubr (lbr_complement d).
Proof. destruct d as [[[a|a]]]; reflexivity. Qed.
Lemma n_ubr_compl d : ubr_complement (ubr d) = lbr (ubr_complement d).
Proof. destruct d as [[[a|a]]]; reflexivity. Qed.
Lemma n_br_compl r : br_complement (br r) = onto us (br_complement r).
Proof.
  unfold br_complement, ubs_union_lbs. rewrite <- n_u_lbs_ubs. f_equal; destruct r as [[[a|a]] [[b|b]]]; reflexivity.
Qed.
Lemma n_bs_compl s : bs_complement (bs s) = onto us (bs_complement s).
Proof.
  unfold bs_complement. change (@Full U) with (us Full). apply onto_foldM. intros x r. rewrite n_br_compl. apply onto_bind. intros c. apply n_us_us.
Qed.
Lemma n_lbs_compl s : lbs_complement (lbs s) = onto ubs (lbs_complement s).
Proof.
  unfold lbs_complement. change (lbs_lbr (lbs s)) with (lbr (lbs_lbr s)). rewrite n_lbr_compl, n_ubs_from.
  apply onto_foldM. intros x r. rewrite n_br_compl. apply onto_bind. intros c. apply n_ubs_us.
Qed.
Lemma n_ubs_compl s : ubs_complement (ubs s) = onto lbs (ubs_complement s).
Proof.
  unfold ubs_complement. change (ubs_ubr (ubs s)) with (ubr (ubs_ubr s)). rewrite n_ubr_compl, n_lbs_from.
  apply onto_foldM. intros x r. rewrite n_br_compl. apply onto_bind. intros c. apply n_lbs_us.
Qed.
Lemma n_us_compl s : us_complement (us s) = onto bs (us_complement s).
Proof.
  destruct s as [|[u l d]]; [reflexivity|]. cbn [us_complement map_us]. unfold map_pus. cbn [pus_ubr pus_lbr pus_ranges].
  rewrite n_lbr_compl, n_ubr_compl, n_ubr_lbr, n_from_br. apply onto_foldM. intros x r. rewrite n_br_compl. apply onto_bind. intros c. apply n_bs_us.
Qed.

(** ** Values *)
Lemma n_contains v t : contains (val v) (f t) = contains v t.
Proof.
  assert (B : forall r, br_contains (br r) (f t) = br_contains r t)
    by (intros [[[a|a]] [[b|b]]]; unfold br_contains; cbn; rewrite ?n_gt, ?n_ge, ?n_lt, ?n_le, ?n_cmp; reflexivity).
  assert (L : forall r, lbr_contains (lbr r) (f t) = lbr_contains r t)
    by (intros [[[a|a]]]; unfold lbr_contains; cbn; rewrite ?n_gt, ?n_ge, ?n_cmp; reflexivity).
  assert (R : forall r, ubr_contains (ubr r) (f t) = ubr_contains r t)
    by (intros [[[a|a]]]; unfold ubr_contains; cbn; rewrite ?n_lt, ?n_le, ?n_cmp; reflexivity).
  assert (Sb : forall s, bs_contains (bs s) (f t) = bs_contains s t)
    by (intros s; unfold bs_contains; cbn [bs_ranges map_bs]; apply existsb_map_comm, B).
  destruct v as [r|r|r|r|r|r|r|r|r|r|r|s|s|s|[|s]]; cbn [contains map_value map_us us_contains];
    unfold range_contains, range_inclusive_contains, range_from_contains, range_to_contains, range_to_inclusive_contains, lbs_contains, ubs_contains, pus_contains;
    cbn [rg_start rg_end ri_start ri_end ri_exhausted rf_start rt_end rti_end map_lbs map_ubs map_pus lbs_lbr lbs_ranges ubs_ubr ubs_ranges pus_ubr pus_ranges pus_lbr];
    rewrite ?n_le, ?n_lt, ?B, ?L, ?R, ?Sb; reflexivity.
Qed.
Lemma n_is_empty v : is_empty (val v) = is_empty v.
Proof.
  destruct v as [r|r|r|r|r|r|r|r|r|r|r|s|s|s|s]; cbn [is_empty map_value rg_start rg_end ri_start ri_end];
    rewrite ?n_ge, ?n_gt, ?n_br_empty, ?n_bs_empty; reflexivity.
Qed.
Lemma n_inner v : value_of_inner (to_inner (val v)) = val (value_of_inner (to_inner v)).
Proof. destruct v as [r|r|r|r|r|r|r|r|r|r|r|s|s|s|s]; reflexivity. Qed.
Lemma n_set v : value_of_set (to_set (val v)) = val (value_of_set (to_set v)).
Proof.
  destruct v as [r|r|r|r|r|r|r|r|r|r|r|s|s|s|s]; cbn [map_value to_set value_of_set]; try reflexivity.
  - change (br_from_range (mkRange (f (rg_start r)) (f (rg_end r)))) with (br (br_from_range r)). rewrite n_from_br. reflexivity.
  - change (br_from_range_inclusive (mkRangeInclusive (f (ri_start r)) (f (ri_end r)) (ri_exhausted r))) with (br (br_from_range_inclusive r)). rewrite n_from_br. reflexivity.
  - rewrite n_from_br. reflexivity.
Qed.
Lemma n_complement v : complement (val v) = onto val (complement v).
Proof.
  destruct v as [r|r|r|r|r|r|r|r|r|r|r|s|s|s|s]; cbn [map_value complement onto]; try reflexivity; unfold ret_us, ret_bs, ret_lbs, ret_ubs.
  - change (br_from_range (mkRange (f (rg_start r)) (f (rg_end r)))) with (br (br_from_range r)). rewrite n_br_compl. apply onto_bind. reflexivity.
  - change (br_from_range_inclusive (mkRangeInclusive (f (ri_start r)) (f (ri_end r)) (ri_exhausted r))) with (br (br_from_range_inclusive r)). rewrite n_br_compl. apply onto_bind. reflexivity.
  - rewrite n_br_compl. apply onto_bind. reflexivity.
  - rewrite n_lbr_compl. reflexivity.
  - rewrite n_ubr_compl. reflexivity.
  - rewrite n_bs_compl. apply onto_bind. reflexivity.
  - rewrite n_lbs_compl. apply onto_bind. reflexivity.
  - rewrite n_ubs_compl. apply onto_bind. reflexivity.
  - rewrite n_us_compl. apply onto_bind. reflexivity.
Qed.

(** The dispatchers, through the inner and set forms. *)
Definition inn (i : inner T) : inner U :=
  match i with
  | IBR r => IBR (br r) | IBS s => IBS (bs s) | ILBR r => ILBR (lbr r) | ILBS s => ILBS (lbs s)
  | IUBR r => IUBR (ubr r) | IUBS s => IUBS (ubs s) | IUnbR r => IUnbR r | IUS s => IUS (us s) | IEmpty r => IEmpty r
  end.
Lemma n_to_inner v : to_inner (val v) = inn (to_inner v).
Proof. destruct v as [r|r|r|r|r|r|r|r|r|r|r|s|s|s|s]; reflexivity. Qed.
Definition sett (i : setv T) : setv U :=
  match i with
  | SBS s => SBS (bs s) | SLBS s => SLBS (lbs s) | SUBS s => SUBS (ubs s) | SUS s => SUS (us s) | SUnbR r => SUnbR r | SEmpty r => SEmpty r
  end.
Lemma n_to_set v : to_set (val v) = sett (to_set v).
Proof.
  destruct v as [r|r|r|r|r|r|r|r|r|r|r|s|s|s|s]; cbn [map_value to_set sett]; try reflexivity.
  - change (br_from_range (mkRange (f (rg_start r)) (f (rg_end r)))) with (br (br_from_range r)). rewrite n_from_br. reflexivity.
  - change (br_from_range_inclusive (mkRangeInclusive (f (ri_start r)) (f (ri_end r)) (ri_exhausted r))) with (br (br_from_range_inclusive r)). rewrite n_from_br. reflexivity.
  - rewrite n_from_br. reflexivity.
Qed.
Ltac wrap := unfold ret_bs, ret_lbs, ret_ubs, ret_us; apply onto_bind; reflexivity.
Lemma n_br_i r v : br_intersection (br r) (val v) = onto val (br_intersection r v).
Proof.
  unfold br_intersection. rewrite n_to_inner. destruct (to_inner v) as [o|o|o|o|o|o|o|o|o]; cbn [inn onto]; try reflexivity.
  - rewrite n_br_br. reflexivity.
  - unfold br_inter_bs. rewrite n_bs_br. reflexivity.
  - rewrite n_br_lbr. reflexivity.
  - unfold br_inter_lbs. rewrite n_lbs_br. wrap.
  - rewrite n_br_ubr. reflexivity.
  - unfold br_inter_ubs. rewrite n_ubs_br. wrap.
  - unfold br_inter_us. rewrite n_us_br. wrap.
Qed.
Lemma n_lbr_i r v : lbr_intersection (lbr r) (val v) = onto val (lbr_intersection r v).
Proof.
  unfold lbr_intersection. rewrite n_to_inner. destruct (to_inner v) as [o|o|o|o|o|o|o|o|o]; cbn [inn onto]; try reflexivity.
  - rewrite n_lbr_br. reflexivity.
  - unfold lbr_inter_bs. rewrite n_bs_lbr. reflexivity.
  - rewrite n_lbr_lbr. reflexivity.
  - unfold lbr_inter_lbs. rewrite n_lbs_lbr. reflexivity.
  - unfold lbr_inter_ubs. rewrite n_ubs_lbr. wrap.
  - unfold lbr_inter_us. rewrite n_us_lbr. wrap.
Qed.
Lemma n_ubr_i r v : ubr_intersection (ubr r) (val v) = onto val (ubr_intersection r v).
Proof.
  unfold ubr_intersection. rewrite n_to_inner. destruct (to_inner v) as [o|o|o|o|o|o|o|o|o]; cbn [inn onto]; try reflexivity.
  - rewrite n_ubr_br. reflexivity.
  - unfold ubr_inter_bs. rewrite n_bs_ubr. reflexivity.
  - unfold ubr_inter_lbs. rewrite n_lbs_ubr. wrap.
  - rewrite n_ubr_ubr. reflexivity.
  - unfold ubr_inter_ubs. rewrite n_ubs_ubr. wrap.
  - unfold ubr_inter_us. rewrite n_us_ubr. wrap.
Qed.
Lemma n_bs_i r v : bs_intersection (bs r) (val v) = onto val (bs_intersection r v).
Proof.
  unfold bs_intersection. rewrite n_to_inner. destruct (to_inner v) as [o|o|o|o|o|o|o|o|o]; cbn [inn onto]; try reflexivity.
  - rewrite n_bs_br. reflexivity.
  - rewrite n_bs_bs. wrap.
  - rewrite n_bs_lbr. reflexivity.
  - rewrite n_bs_lbs. wrap.
  - rewrite n_bs_ubr. reflexivity.
  - rewrite n_bs_ubs. wrap.
  - rewrite n_bs_us. wrap.
Qed.
Lemma n_lbs_i r v : lbs_intersection (lbs r) (val v) = onto val (lbs_intersection r v).
Proof.
  unfold lbs_intersection. rewrite n_to_inner. destruct (to_inner v) as [o|o|o|o|o|o|o|o|o]; cbn [inn onto]; try reflexivity.
  - rewrite n_lbs_br. wrap.
  - unfold lbs_inter_bs. rewrite n_bs_lbs. wrap.
  - rewrite n_lbs_lbr. reflexivity.
  - rewrite n_lbs_lbs. wrap.
  - rewrite n_lbs_ubr. wrap.
  - rewrite n_lbs_ubs. wrap.
  - rewrite n_lbs_us. wrap.
Qed.
Lemma n_ubs_i r v : ubs_intersection (ubs r) (val v) = onto val (ubs_intersection r v).
Proof.
  unfold ubs_intersection. rewrite n_to_inner. destruct (to_inner v) as [o|o|o|o|o|o|o|o|o]; cbn [inn onto]; try reflexivity.
  - rewrite n_ubs_br. wrap.
  - unfold ubs_inter_bs. rewrite n_bs_ubs. wrap.
  - rewrite n_ubs_lbr. wrap.
  - unfold ubs_inter_lbs. rewrite n_lbs_ubs. wrap.
  - rewrite n_ubs_ubr. wrap.
  - rewrite n_ubs_ubs. wrap.
  - rewrite n_ubs_us. wrap.
Qed.
Lemma n_us_i r v : us_intersection (us r) (val v) = onto val (us_intersection r v).
Proof.
  unfold us_intersection. rewrite n_to_inner. destruct (to_inner v) as [o|o|o|o|o|o|o|o|o]; cbn [inn onto]; try reflexivity.
  - rewrite n_us_br. wrap.
  - unfold us_inter_bs. rewrite n_bs_us. wrap.
  - rewrite n_us_lbr. wrap.
  - unfold us_inter_lbs. rewrite n_lbs_us. wrap.
  - rewrite n_us_ubr. wrap.
  - unfold us_inter_ubs. rewrite n_ubs_us. wrap.
  - rewrite n_us_us. wrap.
Qed.
Lemma n_unbr_i r v : unbr_intersection r (val v) = onto val (unbr_intersection r v).
Proof. unfold unbr_intersection. cbn [onto]. rewrite n_inner. reflexivity. Qed.
Lemma n_intersection a b : intersection (val a) (val b) = onto val (intersection a b).
Proof.
  destruct a as [r|r|r|r|r|r|r|r|r|r|r|s|s|s|s]; cbn [map_value intersection];
    try apply n_br_i; try apply n_lbr_i; try apply n_ubr_i; try apply n_bs_i; try apply n_lbs_i; try apply n_ubs_i; try apply n_us_i; try apply n_unbr_i; try reflexivity.
  - unfold range_intersection. rewrite n_to_inner. destruct (to_inner b) as [o|o|o|o|o|o|o|o|o]; cbn [inn]; try reflexivity;
      try (apply (n_br_i (br_from_range r))); try (apply (n_bs_i o (VRange r))); try (apply (n_lbs_i o (VRange r))); try (apply (n_ubs_i o (VRange r))); apply (n_us_i o (VRange r)).
  - unfold range_inclusive_intersection. rewrite n_to_inner. destruct (to_inner b) as [o|o|o|o|o|o|o|o|o]; cbn [inn]; try reflexivity;
      try (apply (n_br_i (br_from_range_inclusive r))); try (apply (n_bs_i o (VRangeInclusive r))); try (apply (n_lbs_i o (VRangeInclusive r))); try (apply (n_ubs_i o (VRangeInclusive r))); apply (n_us_i o (VRangeInclusive r)).
  - unfold range_from_intersection. rewrite n_to_inner. destruct (to_inner b) as [o|o|o|o|o|o|o|o|o]; cbn [inn]; try reflexivity; apply (n_lbr_i (lbr_from_range_from r)).
  - unfold range_to_intersection. rewrite n_to_inner. destruct (to_inner b) as [o|o|o|o|o|o|o|o|o]; cbn [inn]; try reflexivity;
      try (apply (n_ubr_i (ubr_from_range_to r))); try (apply (n_bs_i o (VRangeTo r))); try (apply (n_lbs_i o (VRangeTo r))); try (apply (n_ubs_i o (VRangeTo r))); apply (n_us_i o (VRangeTo r)).
  - unfold range_to_inclusive_intersection. rewrite n_to_inner. destruct (to_inner b) as [o|o|o|o|o|o|o|o|o]; cbn [inn]; try reflexivity;
      try (apply (n_ubr_i (ubr_from_range_to_inclusive r))); try (apply (n_bs_i o (VRangeToInclusive r))); try (apply (n_lbs_i o (VRangeToInclusive r))); try (apply (n_ubs_i o (VRangeToInclusive r))); apply (n_us_i o (VRangeToInclusive r)).
  - unfold range_full_intersection. rewrite n_to_inner. destruct (to_inner b) as [o|o|o|o|o|o|o|o|o]; cbn [inn]; try reflexivity; apply n_unbr_i.
Qed.
Lemma n_bs_u r v : bs_union (bs r) (val v) = onto val (bs_union r v).
Proof.
  unfold bs_union. rewrite n_to_set. destruct (to_set v) as [o|o|o|o|o|o]; cbn [sett]; try reflexivity.
  - unfold bs_union_bs. rewrite n_add_set. wrap.
  - unfold bs_union_lbs. rewrite n_lbs_add_set. wrap.
  - unfold bs_union_ubs. rewrite n_ubs_add_set. wrap.
  - unfold bs_union_us. rewrite n_us_add_set. wrap.
Qed.
Lemma n_lbs_u r v : lbs_union (lbs r) (val v) = onto val (lbs_union r v).
Proof.
  unfold lbs_union. rewrite n_to_set. destruct (to_set v) as [o|o|o|o|o|o]; cbn [sett]; try reflexivity.
  - unfold lbs_union_bs, bs_union_lbs. rewrite n_lbs_add_set. wrap.
  - rewrite n_u_lbs_lbs. wrap.
  - rewrite n_u_lbs_ubs. wrap.
  - rewrite n_u_lbs_us. wrap.
Qed.
Lemma n_ubs_u r v : ubs_union (ubs r) (val v) = onto val (ubs_union r v).
Proof.
  unfold ubs_union. rewrite n_to_set. destruct (to_set v) as [o|o|o|o|o|o]; cbn [sett]; try reflexivity.
  - unfold ubs_union_bs, bs_union_ubs. rewrite n_ubs_add_set. wrap.
  - unfold ubs_union_lbs. rewrite n_u_lbs_ubs. wrap.
  - rewrite n_u_ubs_ubs. wrap.
  - rewrite n_u_ubs_us. wrap.
Qed.
Lemma n_us_u r v : us_union (us r) (val v) = onto val (us_union r v).
Proof.
  unfold us_union. rewrite n_to_set. destruct (to_set v) as [o|o|o|o|o|o]; cbn [sett]; try reflexivity.
  - unfold us_union_bs, bs_union_us. rewrite n_us_add_set. wrap.
  - unfold us_union_lbs. rewrite n_u_lbs_us. wrap.
  - unfold us_union_ubs. rewrite n_u_ubs_us. wrap.
  - unfold us_union_us. rewrite n_us_add_us. wrap.
Qed.
Lemma n_union a b : union (val a) (val b) = onto val (union a b).
Proof.
  destruct a as [r|r|r|r|r|r|r|r|r|r|r|s|s|s|s]; cbn [map_value union];
    try apply n_bs_u; try apply n_lbs_u; try apply n_ubs_u; try apply n_us_u; try reflexivity;
    unfold range_union, range_inclusive_union, range_from_union, range_to_union, range_to_inclusive_union, range_full_union, br_union, lbr_union, ubr_union;
    rewrite n_to_set; destruct (to_set b) as [o|o|o|o|o|o]; cbn [sett]; try reflexivity.
  all: try (change (bs_from_br (br_from_range (mkRange (f (rg_start r)) (f (rg_end r))))) with (bs_from_br (br (br_from_range r)))).
  all: try (change (bs_from_br (br_from_range_inclusive (mkRangeInclusive (f (ri_start r)) (f (ri_end r)) (ri_exhausted r)))) with (bs_from_br (br (br_from_range_inclusive r)))).
  all: try (rewrite n_from_br; apply n_bs_u).
  all: try apply (n_lbs_u (lbs_from_lbr (lbr_from_range_from r))).
  all: try apply (n_ubs_u (ubs_from_ubr (ubr_from_range_to r))).
  all: try apply (n_ubs_u (ubs_from_ubr (ubr_from_range_to_inclusive r))).
  all: try apply (n_lbs_u (lbs_from_lbr r)).
  all: try apply (n_ubs_u (ubs_from_ubr r)).
Qed.
Lemma n_disjoint a b : disjoint (val a) (val b) = disjoint a b.
Proof. unfold disjoint. rewrite n_intersection. destruct (intersection a b); cbn [onto bind]; [rewrite n_is_empty|..]; reflexivity. Qed.
Lemma n_intersects a b : intersects (val a) (val b) = intersects a b.
Proof. unfold intersects. rewrite n_disjoint. reflexivity. Qed.
Lemma n_eval e : eval (map_expr f e) = onto val (eval e).
Proof.
  induction e as [v|a IHa b IHb|a IHa b IHb|a IHa|a IHa|a IHa]; cbn [eval map_expr].
  - reflexivity.
  - rewrite IHa. apply onto_bind. intros x. rewrite IHb. apply onto_bind. intros y. apply n_union.
  - rewrite IHa. apply onto_bind. intros x. rewrite IHb. apply onto_bind. intros y. apply n_intersection.
  - rewrite IHa. apply onto_bind. intros x. apply n_complement.
  - rewrite IHa. apply onto_bind. intros x. cbn [onto]. rewrite n_inner. reflexivity.
  - rewrite IHa. apply onto_bind. intros x. cbn [onto]. rewrite n_set. reflexivity.
Qed.
End NaturalProofs.
