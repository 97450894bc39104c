(** The texts of [Debug] without spaces and line breaks, and what they tell. *)
From Coq Require Import Ascii String Lia DecimalString HexadecimalString DecimalZ HexadecimalN.
From Verif Require Import Base ModelBound ModelRanges ModelSets ModelAlgebra ModelValue ModelIter ModelStep
  ModelDebug SpecDebug StepProofs.

Lemma strip_app a b : strip (a ++ b) = strip a ++ strip b.
Proof. apply filter_app. Qed.
Lemma strip_pad b s : strip (pad b s) = strip s.
Proof.
  revert b. induction s as [|c s IH]; intros b; [reflexivity|]. cbn [pad].
  rewrite strip_app. change (c :: pad (c =? newline)%Z s) with ([c] ++ pad (c =? newline)%Z s).
  change (c :: s) with ([c] ++ s). rewrite !strip_app, IH. now destruct b.
Qed.
Lemma strip_entry s : strip (entry s) = strip s ++ txt ",".
Proof. unfold entry. now rewrite strip_pad, !strip_app. Qed.

Section Codes.
Context (alt : bool).
(** The last entry is followed by a comma under [{:#?}]. *)
Definition tr : text := if alt then txt "," else [].
Ltac strips := rewrite ?strip_app, ?strip_entry, ?strip_app, ?app_nil_r, <- ?app_assoc; try reflexivity.

Lemma strip_tuple n a : strip (debug_tuple alt n [a]) = strip n ++ txt "(" ++ strip a ++ tr ++ txt ")".
Proof. unfold debug_tuple, tr. destruct alt; cbn [flat_map commas]; strips. Qed.
Definition one (f a : text) : text := strip f ++ txt ":" ++ strip a.
Lemma strip_struct1 n f a : strip (debug_struct alt n [(f, a)]) = strip n ++ txt "{" ++ one f a ++ tr ++ txt "}".
Proof. unfold debug_struct, tr, one. destruct alt; cbn [map flat_map commas fst snd]; strips. Qed.
Lemma strip_struct2 n f a g b : strip (debug_struct alt n [(f, a); (g, b)]) =
  strip n ++ txt "{" ++ one f a ++ txt "," ++ one g b ++ tr ++ txt "}".
Proof. unfold debug_struct, tr, one. destruct alt; cbn [map flat_map commas fst snd]; strips. Qed.
Lemma strip_struct3 n f a g b h c : strip (debug_struct alt n [(f, a); (g, b); (h, c)]) =
  strip n ++ txt "{" ++ one f a ++ txt "," ++ one g b ++ txt "," ++ one h c ++ tr ++ txt "}".
Proof. unfold debug_struct, tr, one. destruct alt; cbn [map flat_map commas fst snd]; strips. Qed.

(** What follows is not part of the text, whatever it is. *)
Definition code {A} (f : A -> text) : Prop := forall a b x y, f a ++ x = f b ++ y -> a = b /\ x = y.
(** If it is something that can follow an element. *)
Definition code_if {A} (f : A -> text) : Prop :=
  forall a b x y, stops x -> stops y -> f a ++ x = f b ++ y -> a = b /\ x = y.

(** [[ ]] of texts that start with a [B]. *)
Lemma code_list {A} (f : A -> text) : code (fun a => strip (f a)) -> (forall a, hd 0%Z (strip (f a)) = 66%Z) ->
  code (fun l => strip (debug_list alt (map f l))).
Proof.
  intros C H'.
  assert (H : forall a, exists s, strip (f a) = 66%Z :: s).
  { intros a. specialize (H' a). destruct (strip (f a)) as [|c s]; cbn in H'; [discriminate|]. subst. eauto. }
  assert (G : forall l m x y, strip (flat_map entry (map f l)) ++ txt "]" ++ x = strip (flat_map entry (map f m)) ++ txt "]" ++ y -> l = m /\ x = y).
  { induction l as [|a l IH]; intros [|b m] x y; cbn [map flat_map]; rewrite ?strip_app, ?strip_entry, <- ?app_assoc; intros E.
    - injection E; auto.
    - destruct (H b) as [s Hs]. rewrite Hs in E. discriminate.
    - destruct (H a) as [s Hs]. rewrite Hs in E. discriminate.
    - apply C in E as [<- E]. injection E as E. apply (IH m x y) in E as [<- <-]. auto. }
  assert (K : forall l m x y, l <> [] -> m <> [] -> strip (commas (map f l)) ++ txt "]" ++ x = strip (commas (map f m)) ++ txt "]" ++ y -> l = m /\ x = y).
  { induction l as [|a l IH]; intros [|b m] x y Nl Nm E; try congruence. clear Nl Nm.
    destruct l as [|a' l], m as [|b' m]; cbn [map] in E;
      try change (commas (?u :: ?v :: ?w)) with (u ++ txt ", " ++ commas (v :: w)) in E; cbn [commas] in E;
      rewrite ?strip_app, <- ?app_assoc in E; apply C in E as [<- E]; try discriminate.
    - injection E as ->. auto.
    - injection E as E. apply (IH (b' :: m) x y) in E as [E <-]; [|discriminate..]. rewrite E. auto. }
  assert (X : forall l, exists c s, l <> [] -> strip (debug_list alt (map f l)) = 91%Z :: c :: s /\ c <> 93%Z).
  { intros [|a l]; [exists 0%Z, []; congruence|]. destruct (H a) as [s Hs].
    exists 66%Z. unfold debug_list. cbn [map]. destruct alt; cbn [flat_map].
    - eexists. intros _. split; [|discriminate]. rewrite !strip_app, strip_entry, Hs. reflexivity.
    - destruct l as [|a' l]; cbn [map]; [|change (commas (?u :: ?v :: ?w)) with (u ++ txt ", " ++ commas (v :: w))];
        eexists; (intros _; split; [|discriminate]); cbn [commas]; rewrite !strip_app, Hs; reflexivity. }
  intros l m x y E. destruct l as [|a l], m as [|b m].
  - injection E; auto.
  - destruct (X (b :: m)) as (c & s & Hx). destruct Hx as [Hx Nc]; [discriminate|]. rewrite Hx in E. injection E as E _. congruence.
  - destruct (X (a :: l)) as (c & s & Hx). destruct Hx as [Hx Nc]; [discriminate|]. rewrite Hx in E. injection E as E _. congruence.
  - unfold debug_list in E. cbn [map] in E. destruct alt.
    + rewrite !(strip_app (txt "[")), !(strip_app [newline]), !(strip_app _ (txt "]")), <- !app_assoc in E. injection E as E. now apply (G (a :: l) (b :: m)).
    + rewrite !(strip_app (txt "[")), !(strip_app _ (txt "]")), <- !app_assoc in E. injection E as E. now apply (K (a :: l) (b :: m)); [discriminate..|].
Qed.

Context {T : Type} {DT : Debug T} {DL : DebugLaws T}.
Notation elem := (fun t : T => strip (fmt alt t)).
Lemma tr_stops s : stops (txt ")" ++ s) /\ stops (tr ++ txt ")" ++ s) /\ stops (txt "}" ++ s) /\ stops (tr ++ txt "}" ++ s) /\ stops (txt "," ++ s).
Proof. unfold tr. destruct alt; cbn; tauto. Qed.
Ltac goes := rewrite <- ?app_assoc in *; repeat match goal with
  | E : ?p ++ _ = ?p ++ _ |- _ => apply app_inv_head in E
  | E : txt ?a ++ _ = txt ?a ++ _ |- _ => apply app_inv_head in E end.

Lemma code_bound : code (fun b : Bound T => strip (d_bound alt b)).
Proof.
  intros [a|a] [b|b] x y; cbn [d_bound]; rewrite !strip_tuple; intros E; try discriminate; goes;
    apply dl_code in E as [<- E]; try apply tr_stops; goes; subst; auto.
Qed.
Lemma code_lb : code (fun l : LowerBound T => strip (d_lb alt l)).
Proof. intros [a] [b] x y. unfold d_lb. rewrite !strip_tuple. intros E. goes. apply code_bound in E as [E' E]. cbn in E'. goes. now subst. Qed.
Lemma code_ub : code (fun l : UpperBound T => strip (d_ub alt l)).
Proof. intros [a] [b] x y. unfold d_ub. rewrite !strip_tuple. intros E. goes. apply code_bound in E as [E' E]. cbn in E'. goes. now subst. Qed.
Lemma code_br : code (fun r : BoundedRange T => strip (d_br alt r)).
Proof.
  intros [a b] [c d] x y. unfold d_br. rewrite !strip_struct2. unfold one. intros E. goes.
  apply code_lb in E as [E1 E]. goes. apply code_ub in E as [E2 E]. goes. cbn in E1, E2. now subst.
Qed.
Lemma code_lbr : code (fun r : LowerBoundedRange T => strip (d_lbr alt r)).
Proof. intros [a] [b] x y. unfold d_lbr. rewrite !strip_struct1. unfold one. intros E. goes. apply code_lb in E as [E1 E]. goes. cbn in E1. now subst. Qed.
Lemma code_ubr : code (fun r : UpperBoundedRange T => strip (d_ubr alt r)).
Proof. intros [a] [b] x y. unfold d_ubr. rewrite !strip_struct1. unfold one. intros E. goes. apply code_ub in E as [E1 E]. goes. cbn in E1. now subst. Qed.
Lemma code_bs : code (fun s : BoundedSet T => strip (d_bs alt s)).
Proof.
  intros [l] [m] x y. unfold d_bs. rewrite !strip_struct1. unfold one. intros E. goes.
  apply (code_list (d_br alt) code_br) in E as [E1 E]; [goes; cbn in E1; now subst|].
  intros r. unfold d_br. rewrite strip_struct2. reflexivity.
Qed.
Lemma code_lbs : code (fun s : LowerBoundedSet T => strip (d_lbs alt s)).
Proof.
  intros [a b] [c d] x y. unfold d_lbs. rewrite !strip_struct2. unfold one. intros E. goes.
  apply code_bs in E as [E1 E]. goes. apply code_lbr in E as [E2 E]. goes. cbn in E1, E2. now subst.
Qed.
Lemma code_ubs : code (fun s : UpperBoundedSet T => strip (d_ubs alt s)).
Proof.
  intros [a b] [c d] x y. unfold d_ubs. rewrite !strip_struct2. unfold one. intros E. goes.
  apply code_ubr in E as [E1 E]. goes. apply code_bs in E as [E2 E]. goes. cbn in E1, E2. now subst.
Qed.
Lemma code_pus : code (fun s : PiecewiseUnboundedSet T => strip (d_pus alt s)).
Proof.
  intros [a b c] [d e f] x y. unfold d_pus. rewrite !strip_struct3. unfold one. intros E. goes.
  apply code_ubr in E as [E1 E]. goes. apply code_bs in E as [E2 E]. goes. apply code_lbr in E as [E3 E]. goes. cbn in E1, E2, E3. now subst.
Qed.
Lemma code_us : code (fun s : UnboundedSet T => strip (d_us alt s)).
Proof.
  intros [|p] [|q] x y; cbn [d_us]; rewrite ?strip_tuple; intros E; try discriminate; [apply app_inv_head in E; auto|].
  goes. apply code_pus in E as [E1 E]. goes. now subst.
Qed.
Lemma code_bri : code (fun i : BoundedRangeIter T => strip (d_bri alt i)).
Proof.
  intros [a b] [c d] x y. unfold d_bri. rewrite !strip_struct2. unfold one. intros E. goes.
  apply dl_code in E as [E1 E]; [|apply tr_stops..]. goes. apply dl_code in E as [E2 E]; [|apply tr_stops..]. goes. cbn in E1, E2. now subst.
Qed.
Lemma code_bsi : code (fun i : BoundedSetIter T => strip (d_bsi alt i)).
Proof.
  intros [l] [m] x y. unfold d_bsi. rewrite !strip_struct1. unfold one. intros E. goes.
  apply (code_list (d_bri alt) code_bri) in E as [E1 E]; [goes; cbn in E1; now subst|].
  intros r. unfold d_bri. rewrite strip_struct2. reflexivity.
Qed.
Lemma code_lbri : code (fun i : LowerBoundedRangeIter T => strip (d_lbri alt i)).
Proof.
  intros [a] [c] x y. unfold d_lbri. rewrite !strip_struct1. unfold one. intros E. goes.
  apply dl_code in E as [E1 E]; [|apply tr_stops..]. goes. cbn in E1. now subst.
Qed.
Lemma code_lbsi : code (fun i : LowerBoundedSetIter T => strip (d_lbsi alt i)).
Proof.
  intros [a b] [c d] x y. unfold d_lbsi. rewrite !strip_struct2. unfold one. intros E. goes.
  apply code_bsi in E as [E1 E]. goes. apply code_lbri in E as [E2 E]. goes. cbn in E1, E2. now subst.
Qed.
Lemma code_inj {A} (f : A -> text) : code (fun a => strip (f a)) -> forall a b, f a = f b -> a = b.
Proof. intros C a b E. apply (C a b [] []). now rewrite E. Qed.

Lemma elem_start (t : T) : exists c s, elem t = c :: s /\ ~ (65 <= c <= 90)%Z /\ ~ In c (txt ".=").
Proof. cbv beta. pose proof (dl_start alt t) as H. unfold odd_start in H. destruct (strip (fmt alt t)) as [|c s]; [contradiction|]. exists c, s. split; [reflexivity|exact H]. Qed.
Ltac starts t := let c := fresh "c" in let s := fresh "s" in let E := fresh "E" in let U := fresh "U" in let N := fresh "N" in
  destruct (elem_start t) as (c & s & E & U & N).
(** A text that starts with a capital letter, [.] or [=] is not an element's. *)
Lemma not_elem (t : T) c s x : (65 <= c <= 90)%Z \/ In c (txt ".=") -> elem t ++ x <> c :: s.
Proof. starts t. cbv beta in *. rewrite E. intros H K. injection K as -> _. tauto. Qed.
Lemma elem_ne (t : T) : elem t <> [].
Proof. starts t. cbv beta in *. now rewrite E. Qed.
Definition norm (v : value T) : text := strip (debug alt v).
Definition is_std (v : value T) : bool := match v with VRange _ | VRangeInclusive _ | VRangeFrom _ | VRangeTo _ | VRangeToInclusive _ | VRangeFull _ => true | _ => false end.
Definition cap (s : text) : bool := match s with [] => false | c :: _ => (65 <=? c)%Z && (c <=? 90)%Z end.
Lemma caps (v : value T) : is_std v = false -> cap (norm v) = true.
Proof.
  unfold norm. destruct v; try discriminate; intros _; cbn [debug];
    try (destruct s as [|p]; cbn [d_us]);
    unfold d_br, d_lbr, d_ubr, d_unbr, d_empty, d_bs, d_lbs, d_ubs;
    rewrite ?strip_tuple, ?strip_struct1, ?strip_struct2, ?strip_struct3; reflexivity.
Qed.
Lemma cap_elem (t : T) x : cap (elem t ++ x) = false.
Proof. starts t. cbv beta in *. rewrite E. cbn [app cap]. destruct (Z.leb_spec 65 c), (Z.leb_spec c 90); cbn; tauto. Qed.
Lemma no_caps (v : value T) : is_std v = true -> cap (norm v) = false.
Proof.
  unfold norm. destruct v; try discriminate; intros _; cbn [debug]; rewrite ?strip_app; first [apply cap_elem|reflexivity].
Qed.
(** The texts of [a..b], [a..=b] and [a..], and of [..b], [..=b] and [..]. *)
Lemma dots_eq (t u : T) x y : elem t ++ txt ".." ++ x = elem u ++ txt ".." ++ y -> t = u /\ x = y.
Proof. intros E. apply dl_code in E as [-> E]; [|cbn; tauto..]. now apply app_inv_head in E. Qed.
Lemma last_eq (t u : T) x y : stops x -> stops y -> elem t ++ x = elem u ++ y -> t = u /\ x = y.
Proof. apply dl_code. Qed.
Lemma std_inj (v w : value T) : is_std v = true -> is_std w = true -> norm v = norm w -> v = w.
Proof.
  unfold norm.
  assert (R : forall v, match v with
    | VRange r => norm v = elem (rg_start r) ++ txt ".." ++ elem (rg_end r) ++ []
    | VRangeInclusive r => norm v = elem (ri_start r) ++ txt ".." ++ txt "=" ++ elem (ri_end r) ++ (if ri_exhausted r then txt "@exhausted" else [])
    | VRangeFrom r => norm v = elem (rf_start r) ++ txt ".." ++ []
    | VRangeTo r => norm v = txt ".." ++ elem (rt_end r) ++ []
    | VRangeToInclusive r => norm v = txt ".." ++ txt "=" ++ elem (rti_end r) ++ []
    | VRangeFull r => norm v = txt ".." ++ []
    | _ => True end).
  { unfold norm. intros []; try exact I; cbn [debug]; rewrite ?strip_app, ?app_nil_r; try reflexivity. now destruct (ri_exhausted r). }
  assert (F : forall (t u : T) x y, elem t ++ x <> txt "=" ++ y) by (intros; apply not_elem; right; cbn; tauto).
  assert (F' : forall (t u : T) x y, elem t ++ x <> txt ".." ++ y) by (intros; apply not_elem; right; cbn; tauto).
  assert (N : forall (t u : T) x, elem t ++ x <> []) by (intros t u x X; apply app_eq_nil in X as [X _]; now apply (elem_ne t)).
  assert (S0 : stops []) by exact I.
  intros Sv Sw. pose proof (R v) as Rv. pose proof (R w) as Rw. fold (norm v). fold (norm w).
  destruct v as [[a b]|[a b e]|[a]|[b]|[b]|[]| | | | | | | | |]; try discriminate;
    destruct w as [[a' b']|[a' b' e']|[a']|[b']|[b']|[]| | | | | | | | |]; try discriminate;
    intros E; rewrite Rv in E; rewrite ?Rw in E; cbn [rg_start rg_end ri_start ri_end ri_exhausted rf_start rt_end rti_end] in *.
  all: try (exfalso; now apply (F' _ a _ _ E)); try (exfalso; symmetry in E; now apply (F' _ a' _ _ E)).
  all: first [apply dots_eq in E as [<- E]|apply app_inv_head in E].
  all: try (exfalso; first [now apply (F _ b _ _ E)|now apply (F _ b' _ _ E)|now apply (N _ b _ E)|now apply (N _ b' _ E)|discriminate E]).
  all: try (exfalso; symmetry in E; first [now apply (F _ b _ _ E)|now apply (F _ b' _ _ E)|now apply (N _ b _ E)|now apply (N _ b' _ E)]).
  all: try (apply app_inv_head in E).
  all: try (apply last_eq in E as [<- _]; [reflexivity|exact I..]).
  all: try reflexivity.
  apply last_eq in E as [<- E]; [|destruct e; cbn; tauto|destruct e'; cbn; tauto]. now destruct e, e'.
Qed.
Theorem debug_inj (v w : value T) : debug alt v = debug alt w -> v = w.
Proof.
  intros D. assert (E : norm v = norm w) by (unfold norm; now rewrite D).
  destruct (is_std v) eqn:Sv, (is_std w) eqn:Sw.
  - now apply std_inj.
  - pose proof (no_caps v Sv) as H. rewrite E, (caps w Sw) in H. discriminate.
  - pose proof (caps v Sv) as H. rewrite E, (no_caps w Sw) in H. discriminate.
  - destruct v; try discriminate Sv; destruct w; try discriminate Sw;
      try (now repeat match goal with r : UnboundedRange |- _ => destruct r | r : EmptyRange |- _ => destruct r end);
      try (f_equal; first [apply (code_inj _ code_br)|apply (code_inj _ code_lbr)|apply (code_inj _ code_ubr)|apply (code_inj _ code_bs)
        |apply (code_inj _ code_lbs)|apply (code_inj _ code_ubs)|apply (code_inj _ code_us)]; exact D);
      exfalso; unfold norm in E; cbn [debug] in E; try (destruct s as [|p]); try (destruct s0 as [|p0]);
      unfold d_us, d_br, d_lbr, d_ubr, d_unbr, d_empty, d_bs, d_lbs, d_ubs in E;
      rewrite ?strip_tuple, ?strip_struct1, ?strip_struct2, ?strip_struct3 in E; discriminate.
Qed.
End Codes.

(** ** Integers and [char]s *)

Lemma txt_app_in c s : In c (txt s) -> exists a, In a (list_ascii_of_string s) /\ c = Z.of_N (N_of_ascii a).
Proof. unfold txt. intros H. apply in_map_iff in H as (a & <- & H). eauto. Qed.
Lemma txt_inj s t : txt s = txt t -> s = t.
Proof.
  revert t. induction s as [|a s IH]; intros [|b t] E; try discriminate; [reflexivity|].
  unfold txt in E. cbn [list_ascii_of_string map] in E. injection E as Ea E. apply IH in E as ->. f_equal.
  assert (K : N_of_ascii a = N_of_ascii b) by lia. rewrite <- (ascii_N_embedding a), K. apply ascii_N_embedding.
Qed.
Definition digit (c : Z) : Prop := (48 <= c <= 57)%Z \/ (97 <= c <= 102)%Z \/ c = 45%Z.
Lemma dec_digits u : Forall digit (txt (DecimalString.NilEmpty.string_of_uint u)).
Proof. induction u; cbn; constructor; auto; unfold digit; cbn; lia. Qed.
Lemma hex_digits u : Forall digit (txt (HexadecimalString.NilEmpty.string_of_uint u)).
Proof. induction u; cbn; constructor; auto; unfold digit; cbn; lia. Qed.
Lemma decimal_digits z : Forall digit (decimal z).
Proof.
  unfold decimal, DecimalString.NilZero.string_of_int, DecimalString.NilZero.string_of_uint.
  destruct (Z.to_int z) as [u|u]; [|cbn; constructor; [unfold digit; cbn; lia|]];
    destruct u eqn:E; try (rewrite <- E; apply dec_digits); repeat constructor; unfold digit; cbn; lia.
Qed.
Lemma hexadecimal_digits z : Forall digit (hexadecimal z).
Proof.
  unfold hexadecimal, HexadecimalString.NilZero.string_of_uint.
  destruct (N.to_hex_uint (Z.to_N z)) as [|u|u|u|u|u|u|u|u|u|u|u|u|u|u|u|u]; try apply (hex_digits (_ u)); repeat constructor; unfold digit; cbn; lia.
Qed.

Definition rd (s : string) : Z := match DecimalString.NilZero.int_of_string s with Some d => Z.of_int d | None => 0%Z end.
Lemma rd_string d : rd (DecimalString.NilZero.string_of_int d) = Z.of_int d.
Proof.
  unfold rd. destruct d as [u|u]; destruct u eqn:E; try (rewrite DecimalString.NilZero.isi by discriminate; reflexivity); reflexivity.
Qed.
Lemma decimal_inj z w : decimal z = decimal w -> z = w.
Proof.
  intros E. apply txt_inj in E. apply (f_equal rd) in E. rewrite !rd_string, !DecimalZ.of_to in E. exact E.
Qed.
Definition rdh (s : string) : N := match HexadecimalString.NilZero.uint_of_string s with Some d => N.of_hex_uint d | None => 0%N end.
Lemma rdh_string d : rdh (HexadecimalString.NilZero.string_of_uint d) = N.of_hex_uint d.
Proof.
  unfold rdh. destruct d eqn:E; try (rewrite HexadecimalString.NilZero.usu by discriminate; reflexivity). reflexivity.
Qed.
Lemma hexadecimal_inj z w : (0 <= z)%Z -> (0 <= w)%Z -> hexadecimal z = hexadecimal w -> z = w.
Proof.
  intros Hz Hw E. apply txt_inj in E. apply (f_equal rdh) in E. rewrite !rdh_string, !HexadecimalN.Unsigned.of_to in E. lia.
Qed.
Definition no_digit (x : text) : Prop := match x with [] => True | c :: _ => ~ digit c end.
Lemma digits_code a b x y : Forall digit a -> Forall digit b -> no_digit x -> no_digit y -> a ++ x = b ++ y -> a = b /\ x = y.
Proof.
  intros A. revert b. induction A as [|c a Dc A IH]; intros b B Nx Ny E; destruct B as [|d b Dd B]; cbn [app] in E.
  - auto.
  - subst x. now cbn in Nx.
  - subst y. now cbn in Ny.
  - injection E as <- E. apply (IH b B Nx Ny) in E as [<- <-]. auto.
Qed.
Lemma stops_no_digit x : stops x -> no_digit x.
Proof. destruct x as [|c x]; [exact (fun H => H)|]. cbn. unfold digit. lia. Qed.
Lemma strip_digits s : Forall digit s -> strip s = s.
Proof.
  induction 1 as [|c s D _ IH]; [reflexivity|]. unfold strip in *. cbn [filter]. rewrite IH.
  destruct (Z.eqb_spec c 32), (Z.eqb_spec c newline); unfold digit, newline in *; cbn; try reflexivity; lia.
Qed.
Lemma decimal_ne z : decimal z <> [].
Proof.
  unfold decimal. intros E. change [] with (txt "") in E. apply txt_inj in E.
  unfold DecimalString.NilZero.string_of_int, DecimalString.NilZero.string_of_uint in E. destruct (Z.to_int z) as [u|u]; destruct u; discriminate.
Qed.
#[export] Instance DebugLaws_int {PF : Platform} (ty : ity) : DebugLaws (mint ty).
Proof.
  constructor; cbn [fmt Debug_int].
  - intros _ t. rewrite strip_digits by apply decimal_digits. pose proof (decimal_digits (mval t)) as D. pose proof (decimal_ne (mval t)) as N.
    destruct (decimal (mval t)) as [|c s]; [now destruct N|]. apply Forall_inv in D. unfold digit in D. cbn. lia.
  - intros _ t u x y Hx Hy. rewrite !strip_digits by apply decimal_digits. intros E.
    apply digits_code in E as [E <-]; [|apply decimal_digits..|now apply stops_no_digit|now apply stops_no_digit].
    split; [|reflexivity]. apply decimal_inj in E. now apply mint_eq.
Qed.

(** What is left of an escaped [char] without spaces. *)
Inductive escaped (c : Z) : text -> Prop :=
| e_space : c = 32%Z -> escaped c []
| e_self : ~ In c [32; 92; 39; 10]%Z -> escaped c [c]
| e_hex : (0 <= c)%Z -> escaped c (txt "\u{" ++ hexadecimal c ++ txt "}")
| e_short k : In (c, k) [(0, 48); (9, 116); (13, 114); (10, 110); (92, 92); (39, 39)]%Z -> escaped c [92; k]%Z.
Lemma escape_escaped plain c : (0 <= c)%Z -> escaped c (strip (escape plain c)).
Proof.
  intros P. unfold escape.
  destruct (Z.eqb_spec c 0) as [->|N0]; [apply (e_short 0 48); cbn; tauto|].
  destruct (Z.eqb_spec c 9) as [->|N9]; [apply (e_short 9 116); cbn; tauto|].
  destruct (Z.eqb_spec c 13) as [->|N13]; [apply (e_short 13 114); cbn; tauto|].
  destruct (Z.eqb_spec c 10) as [->|N10]; [apply (e_short 10 110); cbn; tauto|].
  destruct (Z.eqb_spec c 92) as [->|N92]; [apply (e_short 92 92); cbn; tauto|].
  destruct (Z.eqb_spec c 39) as [->|N39]; [apply (e_short 39 39); cbn; tauto|].
  destruct (plain c).
  - destruct (Z.eq_dec c 32) as [->|N]; [now apply e_space|]. unfold strip. cbn [filter].
    destruct (Z.eqb_spec c 32), (Z.eqb_spec c newline); unfold newline in *; try lia. apply e_self. cbn. lia.
  - rewrite !strip_app, (strip_digits _ (hexadecimal_digits c)). now apply e_hex.
Qed.
Lemma escaped_code c d s t x y : escaped c s -> escaped d t -> s ++ txt "'" ++ x = t ++ txt "'" ++ y -> c = d /\ x = y.
Proof.
  intros [E|N|P|k K] [E'|N'|P'|k' K'] H; cbn [app] in H; rewrite <- ?app_assoc in H; cbn in H.
  - injection H as <-. subst. auto.
  - injection H as H _. cbn in N'. lia.
  - discriminate.
  - discriminate.
  - injection H as H _. cbn in N. lia.
  - injection H as <- <-. auto.
  - injection H as H _. cbn in N. lia.
  - injection H as H _. cbn in N. lia.
  - discriminate.
  - injection H as H _. cbn in N'. lia.
  - injection H as H. apply digits_code in H as [H E]; [|apply hexadecimal_digits..|cbn; unfold digit; lia|cbn; unfold digit; lia].
    injection E as <-. apply hexadecimal_inj in H; auto.
  - injection H as H _. cbn in K'. exfalso. repeat (destruct K' as [K'|K']; [injection K' as _ <-; discriminate|]). destruct K'.
  - discriminate.
  - injection H as H _. cbn in N'. lia.
  - injection H as H _. cbn in K. exfalso. repeat (destruct K as [K|K]; [injection K as _ <-; discriminate|]). destruct K.
  - injection H as <- <-. split; [|reflexivity]. cbn in K, K'.
    repeat (destruct K as [K|K]; [injection K as <- <-; repeat (destruct K' as [K'|K']; [now injection K' as <-|]); destruct K'|]). destruct K.
Qed.
Lemma scalar_pos (c : chr) : (0 <= cval c)%Z.
Proof. destruct c as [z H]. cbn. unfold scalar in H. lia. Qed.
Lemma DebugLaws_char plain : @DebugLaws chr (Debug_char plain).
Proof.
  constructor; cbn [fmt Debug_char].
  - intros _ c. rewrite strip_app. cbn. lia.
  - intros _ c d x y _ _. rewrite !strip_app, <- !app_assoc. intros E. apply app_inv_head in E.
    apply (escaped_code (cval c) (cval d)) in E as [E <-]; [|apply escape_escaped, scalar_pos..].
    split; [|reflexivity]. now apply chr_eq.
Qed.
Lemma one_line_int {PF : Platform} (ty : ity) alt : one_line (fmt alt : mint ty -> text).
Proof.
  intros t I. pose proof (decimal_digits (mval t)) as D. rewrite Forall_forall in D. apply D in I. unfold digit, newline in I. lia.
Qed.
Lemma one_line_char plain alt : one_line (@fmt _ (Debug_char plain) alt).
Proof.
  intros c I. cbn in I. destruct I as [I|I]; [discriminate|]. apply in_app_iff in I as [I|I]; [|cbn in I; intuition discriminate].
  unfold escape in I. revert I.
  destruct (Z.eqb_spec (cval c) 0); [cbn; intuition discriminate|].
  destruct (Z.eqb_spec (cval c) 9); [cbn; intuition discriminate|].
  destruct (Z.eqb_spec (cval c) 13); [cbn; intuition discriminate|].
  destruct (Z.eqb_spec (cval c) 10); [cbn; intuition discriminate|].
  destruct (Z.eqb_spec (cval c) 92); [cbn; intuition discriminate|].
  destruct (Z.eqb_spec (cval c) 39); [cbn; intuition discriminate|].
  destruct (plain (cval c)).
  - cbn [In]. unfold newline. intros [I|[]]. lia.
  - intros I. apply in_app_iff in I as [I|I]; [cbn in I; intuition discriminate|].
    apply in_app_iff in I as [I|I]; [|cbn in I; intuition discriminate].
    pose proof (hexadecimal_digits (cval c)) as D. rewrite Forall_forall in D. apply D in I. unfold digit, newline in I. lia.
Qed.
