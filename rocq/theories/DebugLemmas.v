(** Lemmas about [Debug]: what [PadAdapter] does to a text laid out with margins, and texts
    without spaces as codes. *)
From Coq Require Import String Lia DecimalString HexadecimalString DecimalZ HexadecimalN.
From Verif Require Import Base ModelBound ModelRanges ModelSets ModelAlgebra ModelValue ModelIter ModelStep
  ModelDebug SpecDebug.

(** ** Margins *)

Lemma pad_calm w r : ~ In newline w -> pad false (w ++ r) = w ++ pad false r.
Proof.
  induction w as [|c w IH]; cbn [In app pad]; intros H; [reflexivity|].
  destruct (Z.eqb_spec c newline) as [->|_]; [tauto|]. now rewrite IH by tauto.
Qed.
Lemma pad_fresh s : s <> [] -> pad true s = margin 1 ++ pad false s.
Proof. destruct s; [congruence|reflexivity]. Qed.
Lemma pad_break s : s <> [] -> pad false (newline :: s) = newline :: margin 1 ++ pad false s.
Proof. intros N. cbn [pad app]. change (newline =? newline)%Z with true. now rewrite pad_fresh. Qed.
Lemma margin_S d : margin (S d) = margin 1 ++ margin d.
Proof. unfold margin. rewrite <- repeat_app. f_equal. lia. Qed.
Lemma margin_calm d : ~ In newline (margin d).
Proof. intros H. apply repeat_spec in H. discriminate. Qed.

(** What is written as [a] is written as [b] one margin further in. *)
Definition further (a b : text) : Prop := forall r, pad false (a ++ r) = b ++ pad false r.
Definition line (d : nat) (s : text) : text := margin (S d) ++ s ++ txt "," ++ [newline].
Lemma app_ne {A} (a b : list A) : b <> [] -> a ++ b <> [].
Proof. destruct a; cbn; congruence. Qed.

Lemma further_lines d close L : close <> [] -> ~ In newline close -> Forall (fun p => further (fst p) (snd p)) L ->
  forall r, margin 1 ++ pad false (flat_map (line d) (map fst L) ++ margin d ++ close ++ r) =
    flat_map (line (S d)) (map snd L) ++ margin (S d) ++ close ++ pad false r.
Proof.
  intros Nc Cc F r. induction F as [|[a b] L F FL IH]; cbn [map flat_map app fst snd].
  - rewrite (pad_calm (margin d) (close ++ r) (margin_calm d)), (pad_calm close r Cc), (margin_S d).
    now rewrite <- app_assoc.
  - unfold line at 1 3. rewrite <- !app_assoc. rewrite pad_calm by apply margin_calm. cbn [fst snd] in F. rewrite F.
    rewrite (pad_calm (txt ",")) by (cbn; intuition discriminate).
    change ([newline] ++ ?s) with (newline :: s). rewrite pad_break.
    + cbn [app]. rewrite IH. now rewrite (margin_S (S d)), <- !app_assoc.
    + intros E. do 2 (apply app_eq_nil in E as [_ E]). apply app_eq_nil in E as [E _]. congruence.
Qed.
Lemma further_block d head close L : ~ In newline head -> close <> [] -> ~ In newline close ->
  Forall (fun p => further (fst p) (snd p)) L ->
  further (head ++ [newline] ++ flat_map (line d) (map fst L) ++ margin d ++ close)
    (head ++ [newline] ++ flat_map (line (S d)) (map snd L) ++ margin (S d) ++ close).
Proof.
  intros Ch Nc Cc F r. rewrite <- !app_assoc, pad_calm by exact Ch. change ([newline] ++ ?s) with (newline :: s).
  rewrite pad_break.
  - cbn [app]. rewrite (further_lines d close L Nc Cc F r). reflexivity.
  - intros E. do 2 (apply app_eq_nil in E as [_ E]). apply app_eq_nil in E as [E _]. congruence.
Qed.
Lemma further_app a b a' b' : further a b -> further a' b' -> further (a ++ a') (b ++ b').
Proof. intros H K r. now rewrite <- !app_assoc, H, K. Qed.
Lemma further_calm a : ~ In newline a -> further a a.
Proof. intros H r. now apply pad_calm. Qed.

(** ** Shapes *)

(** No line breaks but those of the layout. *)
Inductive calm : shape -> Prop :=
| calm_leaf w : ~ In newline w -> calm (Leaf w)
| calm_tuple n a : ~ In newline n -> calm a -> calm (Tuple n a)
| calm_struct n fs : ~ In newline n -> calm_fields fs -> calm (Struct n fs)
| calm_list l : calm_items l -> calm (List l)
with calm_fields : list (text * shape) -> Prop :=
| calm_f0 : calm_fields []
| calm_f1 f a l : ~ In newline f -> calm a -> calm_fields l -> calm_fields ((f, a) :: l)
with calm_items : list shape -> Prop :=
| calm_i0 : calm_items []
| calm_i1 a l : calm a -> calm_items l -> calm_items (a :: l).
Scheme calm_i := Minimality for calm Sort Prop
  with calm_fi := Minimality for calm_fields Sort Prop
  with calm_ii := Minimality for calm_items Sort Prop.
Combined Scheme calm_ind3 from calm_i, calm_fi, calm_ii.

Lemma pretty_struct d n fs : pretty d (Struct n fs) =
  (n ++ txt " {") ++ [newline] ++ flat_map (line d) (map (fun p => fst p ++ txt ": " ++ pretty (S d) (snd p)) fs) ++ margin d ++ txt "}".
Proof.
  cbn [pretty]. rewrite <- !app_assoc. do 3 f_equal. f_equal.
  induction fs as [|[f a] fs IH]; cbn [map flat_map fst snd]; [reflexivity|].
  rewrite IH. unfold line. now rewrite <- !app_assoc.
Qed.
Lemma pretty_list d a l : pretty d (List (a :: l)) =
  txt "[" ++ [newline] ++ flat_map (line d) (map (pretty (S d)) (a :: l)) ++ margin d ++ txt "]".
Proof.
  set (go := fix go l := match l with [] => []
    | a :: l => margin (S d) ++ pretty (S d) a ++ txt "," ++ [newline] ++ go l end).
  change (pretty d (List (a :: l))) with (txt "[" ++ [newline] ++ go (a :: l) ++ margin d ++ txt "]").
  assert (G : forall m, go m = flat_map (line d) (map (pretty (S d)) m)).
  { induction m as [|b m IH]; cbn [map flat_map]; [reflexivity|].
    change (go (b :: m)) with (margin (S d) ++ pretty (S d) b ++ txt "," ++ [newline] ++ go m).
    rewrite IH. unfold line. now rewrite <- !app_assoc. }
  now rewrite G.
Qed.
Lemma pretty_tuple d n a : pretty d (Tuple n a) =
  (n ++ txt "(") ++ [newline] ++ flat_map (line d) [pretty (S d) a] ++ margin d ++ txt ")".
Proof. cbn [pretty flat_map]. unfold line. now rewrite app_nil_r, <- !app_assoc. Qed.

Ltac calm_txt := cbn; intuition discriminate.
Lemma calm_app (a b : text) : ~ In newline a -> ~ In newline b -> ~ In newline (a ++ b).
Proof. intros H K I. apply in_app_iff in I as [I|I]; tauto. Qed.

Lemma pretty_further : (forall s, calm s -> forall d, further (pretty d s) (pretty (S d) s)) /\
  (forall fs, calm_fields fs -> forall d, Forall (fun p => further (fst p) (snd p))
     (map (fun p => (fst p ++ txt ": " ++ pretty d (snd p), fst p ++ txt ": " ++ pretty (S d) (snd p))) fs)) /\
  (forall l, calm_items l -> forall d, Forall (fun p => further (fst p) (snd p))
     (map (fun a => (pretty d a, pretty (S d) a)) l)).
Proof.
  apply calm_ind3.
  - intros w C d. now apply further_calm.
  - intros n a C _ IH d. rewrite !pretty_tuple.
    apply (further_block d (n ++ txt "(") (txt ")") [(pretty (S d) a, pretty (S (S d)) a)]); [apply calm_app; [exact C|calm_txt]|discriminate|calm_txt|].
    constructor; [apply IH|constructor].
  - intros n fs C _ IH d. rewrite !pretty_struct. specialize (IH (S d)).
    pose proof (further_block d (n ++ txt " {") (txt "}") _ ltac:(apply calm_app; [exact C|calm_txt]) ltac:(discriminate) ltac:(calm_txt) IH) as B.
    rewrite !map_map in B. exact B.
  - intros [|a l] _ IH d; [apply further_calm; calm_txt|]. rewrite !pretty_list. specialize (IH (S d)).
    pose proof (further_block d (txt "[") (txt "]") _ ltac:(calm_txt) ltac:(discriminate) ltac:(calm_txt) IH) as B.
    rewrite !map_map in B. exact B.
  - constructor.
  - intros f a l C _ IHa _ IHl d. constructor; [|apply IHl]. cbn [fst snd].
    apply further_app; [now apply further_calm|]. apply further_app; [apply further_calm; calm_txt|apply IHa].
  - constructor.
  - intros a l _ IHa _ IHl d. constructor; [apply IHa|apply IHl].
Qed.

(** ** The builders lay shapes out *)

Lemma entry_line a b : further a b -> entry a = line 0 b.
Proof.
  intros F. unfold entry. rewrite pad_fresh by (apply app_ne; discriminate). rewrite F.
  unfold line. reflexivity.
Qed.
Lemma entries L : Forall (fun p => further (fst p) (snd p)) L -> flat_map entry (map fst L) = flat_map (line 0) (map snd L).
Proof. induction 1 as [|[a b] L F _ IH]; cbn [map flat_map]; [reflexivity|]. cbn [fst snd] in *. now rewrite IH, (entry_line a b F). Qed.

Lemma lay_tuple alt n a : calm a -> debug_tuple alt n [layout alt a] = layout alt (Tuple n a).
Proof.
  intros C. destruct alt; cbn [layout debug_tuple plain commas]; [|reflexivity].
  rewrite pretty_tuple. cbn [flat_map]. rewrite (entry_line _ _ (proj1 pretty_further a C 0%nat)). now rewrite <- !app_assoc.
Qed.
Lemma lay_struct alt n f a fs : calm_fields ((f, a) :: fs) ->
  debug_struct alt n (map (fun p => (fst p, layout alt (snd p))) ((f, a) :: fs)) = layout alt (Struct n ((f, a) :: fs)).
Proof.
  intros C. destruct alt; cbn [layout]; unfold debug_struct.
  - rewrite pretty_struct. cbn [map fst snd]. rewrite !map_map. cbn [fst snd].
    pose proof (entries _ (proj1 (proj2 pretty_further) _ C 0%nat)) as E. cbn [map fst snd] in E. rewrite !map_map in E. cbn [fst snd] in E.
    change text with (list Z) in *. rewrite E. now rewrite <- !app_assoc.
  - cbn [map fst snd plain]. do 2 f_equal.
    assert (G : forall f a fs, commas ((f ++ txt ": " ++ plain a) :: map (fun p => fst p ++ txt ": " ++ snd p) (map (fun p => (fst p, plain (snd p))) fs)) =
      f ++ txt ": " ++ plain a ++ match fs with [] => [] | _ => txt ", " ++ (fix go l := match l with [] => []
        | (f, a) :: l => f ++ txt ": " ++ plain a ++ match l with [] => [] | _ => txt ", " ++ go l end end) fs end).
    { intros f' a' l. revert f' a'. induction l as [|[g b] l IH]; intros f' a'; cbn [map fst snd]; [cbn [commas]; now rewrite app_nil_r|].
      change (commas (?x :: ?y :: ?z)) with (x ++ txt ", " ++ commas (y :: z)). rewrite IH, <- !app_assoc. reflexivity. }
    now rewrite G.
Qed.
Lemma lay_list alt l : calm_items l -> debug_list alt (map (layout alt) l) = layout alt (List l).
Proof.
  intros C. destruct l as [|a l]; [now destruct alt|]. destruct alt; cbn [layout]; unfold debug_list.
  - rewrite pretty_list. cbn [map].
    pose proof (entries _ (proj2 (proj2 pretty_further) _ C 0%nat)) as E. rewrite !map_map in E.
    change (flat_map entry (pretty 0 a :: map (pretty 0) l) = flat_map (line 0) (pretty 1 a :: map (pretty 1) l)) in E. now rewrite E.
  - cbn [map plain]. do 2 f_equal.
    assert (G : forall a l, commas (plain a :: map plain l) =
      plain a ++ match l with [] => [] | _ => txt ", " ++ (fix go l := match l with [] => []
        | a :: l => plain a ++ match l with [] => [] | _ => txt ", " ++ go l end end) l end).
    { intros a' m. revert a'. induction m as [|b m IH]; intros a'; cbn [map]; [cbn [commas]; now rewrite app_nil_r|].
      change (commas (?x :: ?y :: ?z)) with (x ++ txt ", " ++ commas (y :: z)). rewrite IH. reflexivity. }
    now rewrite G.
Qed.
Lemma lay_fields alt n fs L : fs <> [] -> calm_fields fs -> L = map (fun p => (fst p, layout alt (snd p))) fs ->
  debug_struct alt n L = layout alt (Struct n fs).
Proof. destruct fs as [|[f a] fs]; [congruence|]. intros _ C ->. now apply lay_struct. Qed.

(** ** Values *)

Section Values.
Context {T : Type} {DT : Debug T} (alt : bool) (L : one_line (fmt alt : T -> text)) (P : ~ In newline (phantom (T := T))).
Notation elem := (fmt alt : T -> text).

Lemma c_bound (b : Bound T) : calm (s_bound elem b).
Proof. destruct b; (constructor; [calm_txt|constructor; apply L]). Qed.
Ltac calm_shape := repeat first [apply c_bound|apply L|apply P|calm_txt|constructor].
Lemma l_bound (b : Bound T) : d_bound alt b = layout alt (s_bound elem b).
Proof. destruct b; cbn [d_bound s_bound]; rewrite <- lay_tuple by (constructor; apply L); now destruct alt. Qed.
Lemma l_lb (l : LowerBound T) : d_lb alt l = layout alt (snd (s_start elem l)).
Proof. unfold d_lb, s_start. cbn [snd]. now rewrite <- lay_tuple, <- l_bound by apply c_bound. Qed.
Lemma l_ub (u : UpperBound T) : d_ub alt u = layout alt (snd (s_end elem u)).
Proof. unfold d_ub, s_end. cbn [snd]. now rewrite <- lay_tuple, <- l_bound by apply c_bound. Qed.
Lemma c_br (r : BoundedRange T) : calm (s_br elem r).
Proof. constructor; [calm_txt|]. calm_shape. Qed.
Lemma l_br (r : BoundedRange T) : d_br alt r = layout alt (s_br elem r).
Proof. apply lay_fields; [discriminate|calm_shape|]. now rewrite l_lb, l_ub. Qed.
Lemma c_lbr (r : LowerBoundedRange T) : calm (s_lbr elem r).
Proof. calm_shape. Qed.
Lemma l_lbr (r : LowerBoundedRange T) : d_lbr alt r = layout alt (s_lbr elem r).
Proof. apply lay_fields; [discriminate|calm_shape|]. now rewrite l_lb. Qed.
Lemma c_ubr (r : UpperBoundedRange T) : calm (s_ubr elem r).
Proof. calm_shape. Qed.
Lemma l_ubr (r : UpperBoundedRange T) : d_ubr alt r = layout alt (s_ubr elem r).
Proof. apply lay_fields; [discriminate|calm_shape|]. now rewrite l_ub. Qed.
Lemma c_items {A} (f : A -> shape) (H : forall a, calm (f a)) l : calm_items (map f l).
Proof. induction l; constructor; auto. Qed.
Lemma l_items {A} (d : A -> text) (f : A -> shape) (H : forall a, calm (f a)) (E : forall a, d a = layout alt (f a)) l :
  debug_list alt (map d l) = layout alt (List (map f l)).
Proof. rewrite <- lay_list by now apply c_items. rewrite map_map. f_equal. now apply map_ext. Qed.
Lemma c_bs (s : BoundedSet T) : calm (s_bs elem s).
Proof. constructor; [calm_txt|]. constructor; [calm_txt| |constructor]. constructor. apply c_items, c_br. Qed.
Lemma l_bs (s : BoundedSet T) : d_bs alt s = layout alt (s_bs elem s).
Proof.
  apply lay_fields; [discriminate|constructor; [calm_txt|constructor; apply c_items, c_br|constructor]|].
  now rewrite (l_items _ _ c_br l_br).
Qed.
Ltac calm_parts := repeat first [apply c_lbr|apply c_ubr|apply c_bs|apply P|calm_txt|constructor].

Theorem debug_layout (v : value T) : debug alt v = layout alt (shape_of elem (phantom (T := T)) v).
Proof.
  destruct v; cbn [debug shape_of]; try (now destruct alt).
  - apply l_br.
  - apply l_lbr.
  - apply l_ubr.
  - apply lay_fields; [discriminate|calm_parts|now destruct alt].
  - apply l_bs.
  - apply lay_fields; [discriminate|calm_parts|]. now rewrite l_bs, l_lbr.
  - apply lay_fields; [discriminate|calm_parts|]. now rewrite l_bs, l_ubr.
  - destruct s as [|p]; [now destruct alt|]. cbn [d_us]. rewrite <- lay_tuple by calm_parts. do 2 f_equal.
    apply lay_fields; [discriminate|calm_parts|]. now rewrite l_bs, l_lbr, l_ubr.
Qed.
Lemma c_bri (i : BoundedRangeIter T) : calm (s_bri elem i).
Proof. calm_shape. Qed.
Theorem l_bri (i : BoundedRangeIter T) : d_bri alt i = layout alt (s_bri elem i).
Proof. apply lay_fields; [discriminate|calm_shape|now destruct alt]. Qed.
Lemma c_bsi (i : BoundedSetIter T) : calm (s_bsi elem i).
Proof. constructor; [calm_txt|]. constructor; [calm_txt| |constructor]. constructor. apply c_items, c_bri. Qed.
Theorem l_bsi (i : BoundedSetIter T) : d_bsi alt i = layout alt (s_bsi elem i).
Proof.
  apply lay_fields; [discriminate|constructor; [calm_txt|constructor; apply c_items, c_bri|constructor]|].
  now rewrite (l_items _ _ c_bri l_bri).
Qed.
Lemma c_lbri (i : LowerBoundedRangeIter T) : calm (s_lbri elem i).
Proof. calm_shape. Qed.
Theorem l_lbri (i : LowerBoundedRangeIter T) : d_lbri alt i = layout alt (s_lbri elem i).
Proof. apply lay_fields; [discriminate|calm_shape|now destruct alt]. Qed.
Theorem l_lbsi (i : LowerBoundedSetIter T) : d_lbsi alt i = layout alt (s_lbsi elem i).
Proof.
  apply lay_fields; [discriminate|repeat first [apply c_bsi|apply c_lbri|calm_txt|constructor]|]. now rewrite l_bsi, l_lbri.
Qed.
End Values.
