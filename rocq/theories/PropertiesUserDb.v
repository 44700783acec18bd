(** C125: databases extended by an application. C126: switching the log on. *)
From Verif Require Import Base HMap ModelCodec DbTable MakerTable ModelObject ModelDatabase SpecWire SpecObject ProofsCodec ProofsCodec2 PropertiesCodec ProofsObject ProofsObject2 ProofsObject3 PropertiesObject PropertiesDb.

(* ------------------------------------------------------------------ *)
(** ** C125 *)

(** [x] is the first entry of [l] with the key [k]. *)
Definition first_with {A} (key : A -> N) (l : list A) (k : N) (x : A) : Prop :=
  exists before after, l = before ++ x :: after /\ key x = k /\ forall y, In y before -> key y <> k.
Definition none_with {A} (key : A -> N) (l : list A) (k : N) : Prop := forall y, In y l -> key y <> k.

(** What the application has added, in order. *)
Fixpoint added_manufactures (cs : list db_call) : list manufacture :=
  match cs with [] => [] | AddManufacture m :: r => m :: added_manufactures r | AddObject _ :: r => added_manufactures r end.
Fixpoint added_objects (cs : list db_call) : list object :=
  match cs with [] => [] | AddManufacture _ :: r => added_objects r | AddObject o :: r => o :: added_objects r end.

Lemma run_contents cs : forall d, db_run d cs = Database (db_manufactures d ++ added_manufactures cs) (db_objects d ++ added_objects cs).
Proof.
  induction cs as [|c r IH]; intro d; unfold db_run in *; cbn [fold_left added_manufactures added_objects].
  - rewrite !app_nil_r. destruct d; reflexivity.
  - rewrite IH. destruct c; cbn; rewrite <- ?app_assoc; reflexivity.
Qed.

Lemma find_first {A} (key : A -> N) l k : match find (fun x => key x =? k) l with Some x => first_with key l k x | None => none_with key l k end.
Proof.
  induction l as [|y r IH]; cbn [find]; [intros y []|]. destruct (key y =? k) eqn:E.
  - exists [], r. split; auto. split; [lia|]. intros z [].
  - destruct (find (fun x => key x =? k) r) as [x|].
    + destruct IH as (b & a & -> & K & F). exists (y :: b), a. split; auto. split; auto. intros z [<-|I]; [lia|auto].
    + intros z [<-|I]; [lia|auto].
Qed.
Lemma first_unique {A} (key : A -> N) l k x y : first_with key l k x -> first_with key l k y -> x = y.
Proof.
  intros (b & a & -> & K & F) (b' & a' & E & K' & F'). revert b' E F'. induction b as [|z b IH]; intros [|z' b'] E F'; cbn in E; inversion E; subst; auto.
  - exfalso. apply (F' z'); [left; auto|auto].
  - exfalso. apply (F y); [left; auto|auto].
  - eapply IH; eauto. intros u I. apply F. right; auto. intros u I. apply F'. right; auto.
Qed.
Lemma manufacture_loop l code : find_manufacture_loop l code = find (fun m => mf_code m =? code) l.
Proof. induction l as [|m r IH]; cbn; auto. destruct (mf_code m =? code); auto. Qed.
Lemma find_app {A} (f : A -> bool) l r : find f (l ++ r) = match find f l with Some x => Some x | None => find f r end.
Proof. induction l as [|x l IH]; cbn; auto. destruct (f x); auto. Qed.
Lemma standard_find code : find (fun m => mf_code m =? code) standard_manufactures = option_map (fun r => Manufacture (fst r) (snd r)) (find_manufacture code).
Proof.
  unfold standard_manufactures, find_manufacture. generalize maker_table. induction l as [|[k n] r IH]; auto. cbn [map find fst snd manufacture_set_name manufacture_set_code mf_code mf_name manufacture_new].
  destruct (k =? code); auto.
Qed.

Section Db.
  Context {P : Profile} {HO : HashOrder}.

  (** A manufacturer of the standard's table is found as the table has it, whatever
      has been added; any other code gives the first one added with it. *)
  Theorem C125_manufactures seed d cs code : database_new seed = Ret d ->
    match database_find_manufacture (db_run d cs) code with
    | Some m => (In (mf_code m, mf_name m) maker_table /\ mf_code m = code) \/
                (~ In code (map fst maker_table) /\ first_with mf_code (added_manufactures cs) code m)
    | None => ~ In code (map fst maker_table) /\ none_with mf_code (added_manufactures cs) code
    end /\
    (forall name, In (code, name) maker_table -> database_find_manufacture (db_run d cs) code = Some (Manufacture code name)).
  Proof.
    unfold database_new. destruct (standard_database seed) as [os|]; cbn [obind]; [|discriminate]. intro H. inversion H; subst d. clear H.
    unfold database_find_manufacture. rewrite run_contents. cbn [db_manufactures]. rewrite manufacture_loop, find_app, standard_find.
    destruct (C31_manufacturers code) as (M & No & _). split.
    - destruct (find_manufacture code) as [[k n]|] eqn:E; cbn [option_map fst snd mf_code mf_name].
      + left. assert (k = code). { unfold find_manufacture in E. apply find_some in E as [_ E]. cbn in E. lia. } subst. split; auto. apply M. reflexivity.
      + pose proof (find_first mf_code (added_manufactures cs) code) as F. destruct (find _ (added_manufactures cs)) as [m|]; [right|]; split; auto; apply No; auto.
    - intros name I. apply M in I. rewrite I. reflexivity.
  Qed.

  (** A class of the standard's table is found as without the additions; any other
      code gives the first object added with its class code and instance code 0. *)
  Theorem C125_objects seed d cs code : database_new seed = Ret d ->
    match database_find_object d code with
    | Some o => database_find_object (db_run d cs) code = Some o
    | None => match database_find_object (db_run d cs) code with
              | Some o => first_with object_code (added_objects cs) (code / 2 ^ 8 mod 2 ^ 16 * 2 ^ 8) o
              | None => none_with object_code (added_objects cs) (code / 2 ^ 8 mod 2 ^ 16 * 2 ^ 8)
              end
    end.
  Proof.
    intro H. clear H. unfold database_find_object, db_find_object. rewrite run_contents. cbn [db_objects]. rewrite find_app.
    destruct (find _ (db_objects d)) as [o|]; auto.
    assert (E : N.land code 0xFFFF00 = code / 2 ^ 8 mod 2 ^ 16 * 2 ^ 8).
    { rewrite mask_class. reflexivity. }
    rewrite E. pose proof (find_first object_code (added_objects cs) (code / 2 ^ 8 mod 2 ^ 16 * 2 ^ 8)) as F. destruct (find _ (added_objects cs)); exact F.
  Qed.

  (** An object added for a code of its own is found under that code, if the code is
      not of the table, has instance code 0 and nothing was added with it before. *)
  Theorem C125_added_partial seed d cs1 o cs2 : database_new seed = Ret d ->
    unlisted (object_code o) -> object_code o < 2 ^ 24 -> object_code o mod 2 ^ 8 = 0 -> none_with object_code (added_objects cs1) (object_code o) ->
    database_find_object (db_run d (cs1 ++ AddObject o :: cs2)) (object_code o) = Some o.
  Proof.
    intros D U L Z No. pose proof (C125_objects seed d (cs1 ++ AddObject o :: cs2) (object_code o) D) as X.
    assert (E : object_code o / 2 ^ 8 mod 2 ^ 16 * 2 ^ 8 = object_code o).
    { change (2 ^ 8) with 256 in *. change (2 ^ 16) with 65536. change (2 ^ 24) with 16777216 in L. lia. }
    rewrite E in X. assert (N0 : database_find_object d (object_code o) = None).
    { unfold database_new in D. destruct (C27_lookup P HO seed) as (db & Ed & F). rewrite Ed in D. cbn [obind] in D. inversion D; subst. apply F. exact U. }
    rewrite N0 in X. assert (A : forall c1 c2, added_objects (c1 ++ c2) = added_objects c1 ++ added_objects c2).
    { intros c1 c2. induction c1 as [|[m|o'] r IH]; cbn; auto. rewrite IH. reflexivity. }
    assert (F : first_with object_code (added_objects (cs1 ++ AddObject o :: cs2)) (object_code o) o).
    { rewrite A. cbn [added_objects]. exists (added_objects cs1), (added_objects cs2). auto. }
    destruct (database_find_object (db_run d _) (object_code o)) as [o'|].
    - f_equal. eapply first_unique; eauto.
    - exfalso. destruct F as (b & a & Eq & _ & _). apply (X o); [rewrite Eq; apply in_app_iff; right; left; auto|auto].
  Qed.

  (** An object with another instance code is never found, under no code. *)
  Theorem C125_instance_refuted seed d cs o code : database_new seed = Ret d -> object_code o mod 2 ^ 8 <> 0 ->
    database_find_object d code = None -> database_find_object (db_run d cs) code <> Some o.
  Proof.
    intros D Z No E. pose proof (C125_objects seed d cs code D) as X. rewrite No, E in X. destruct X as (b & a & _ & K & _). apply Z. rewrite K.
    change (2 ^ 8) with 256. lia.
  Qed.
  (** Nor can the entry of a class of the table be replaced. *)
  Theorem C125_listed_refuted seed d cs c code : database_new seed = Ret d -> lists_class code c ->
    exists o, database_find_object (db_run d cs) code = Some o /\ o_codes o = (c_grp c, c_cls c, 0) /\ o_class_name o = c_name c /\
      forall k, object_has_property o k = true <-> exists r, In r (c_rows c) /\ r_code r = k.
  Proof.
    intros D L. pose proof (C125_objects seed d cs code D) as X. unfold database_new in D. destruct (C27_lookup P HO seed) as (db & Ed & F). rewrite Ed in D. cbn [obind] in D. inversion D; subst d.
    destruct (proj2 (F code) c L) as (o & E & O1 & _ & O2 & O3). unfold database_find_object at 1 in X. cbn [db_objects] in X. rewrite E in X. eauto 6.
  Qed.
  (** The calls themselves: adding succeeds, and a manufacture holds what was put into it. *)
  Theorem C125_calls (d : database) m o (m0 : manufacture) code name :
    snd (database_add_manufacture d m) = true /\ snd (database_add_object d o) = true /\
    manufacture_new = Manufacture 0 "" /\
    mf_code (manufacture_set_code m0 code) = code /\ mf_name (manufacture_set_code m0 code) = mf_name m0 /\
    mf_name (manufacture_set_name m0 name) = name /\ mf_code (manufacture_set_name m0 name) = mf_code m0.
  Proof. repeat split. Qed.
End Db.

(** A database to which a manufacturer, a class of the application (0x0F0100), an
    instance of it and another lamp are added. *)
Definition own_object (a b c : N) : object := Obj (a, b, c) "" "own" [] 0.
Definition own_calls : list db_call :=
  [AddManufacture (Manufacture 0xFFFFF0 "first"); AddObject (own_object 0x0F 1 1); AddObject (own_object 0x0F 1 0); AddObject (own_object 0x02 0x91 0);
   AddManufacture (Manufacture 0xFFFFF0 "second"); AddManufacture (Manufacture 0x00000B "third")].
Example C125_case : match database_new (P := true) (HO := ex_order) (fun k => k) with
  | Ret d => let d' := db_run d own_calls in
      (option_map mf_name (database_find_manufacture d' 0xFFFFF0), option_map mf_name (database_find_manufacture d' 0x00000B),
       option_map o_class_name (database_find_object d' 0x0F0105), option_map o_class_name (database_find_object d' 0x029101), option_map o_class_name (database_find_object d' 0x0F0205))
  | Panic => (None, None, None, None, None)
  end = (Some "first", Some "Panasonic Holdings Corporation", Some "own", Some "Mono functional lighting", None)%string.
Proof. vm_compute. reflexivity. Qed.

(* ------------------------------------------------------------------ *)
(** ** C126 *)

(** A logger of the application was installed before the first Logger::init. *)
Fixpoint forestalled (cs : list log_call) : bool :=
  match cs with [] => false | LOther :: _ => true | LInit :: _ => false | _ :: r => forestalled r end.
(** Logger::init was called. *)
Definition asked (cs : list log_call) : bool := existsb (fun c => match c with LInit => true | _ => false end) cs.
(** The level in force after the calls: what was set last; the first init sets 5
    unless a logger of the application was there first. *)
Fixpoint level_after (first : bool) (level : N) (cs : list log_call) : N :=
  match cs with
  | [] => level
  | LInit :: r => level_after false (if first then 5 else level) r
  | LOther :: r => level_after false level r
  | LSetMax l :: r => level_after first l r
  | _ :: r => level_after first level r
  end.

Lemma log_run_app cs1 : forall s cs2, log_run s (cs1 ++ cs2) = (fst (log_run (fst (log_run s cs1)) cs2), snd (log_run s cs1) ++ snd (log_run (fst (log_run s cs1)) cs2)).
Proof.
  induction cs1 as [|c r IH]; intros s cs2; cbn [app log_run fst snd]; [destruct (log_run s cs2); reflexivity|].
  destruct (log_step s c) as [s1 b]. rewrite IH. destruct (log_run s1 r) as [s2 bs]. cbn [fst snd app]. destruct (log_run s2 cs2). reflexivity.
Qed.
(** State after any calls. *)
Definition log_good (cs : list log_call) (s : logging) : Prop :=
  lg_max s = level_after true 0 cs /\
  lg_installed s = (if forestalled cs then Some false else if asked cs then Some true else None) /\
  lg_once s = (if asked cs then if forestalled cs then OncePoisoned else OnceDone else OnceNew).
Lemma level_snoc cs c : forall f l, level_after f l (cs ++ [c]) =
  match c with LInit => if f && negb (asked cs) && negb (existsb (fun c => match c with LOther => true | _ => false end) cs) then 5 else level_after f l cs | LSetMax x => x | _ => level_after f l cs end.
Proof.
  induction cs as [|x r IH]; intros f l; cbn [app level_after].
  - destruct c; cbn; try reflexivity. destruct f; reflexivity.
  - destruct x; rewrite IH; destruct c; cbn; try reflexivity; rewrite ?andb_false_r; cbn; try reflexivity.
Qed.
Lemma forestalled_snoc cs c : forestalled (cs ++ [c]) = forestalled cs || (negb (asked cs) && match c with LOther => true | _ => false end).
Proof. induction cs as [|x r IH]; cbn; [destruct c; auto|]. destruct x; cbn; auto. Qed.
Lemma asked_snoc cs c : asked (cs ++ [c]) = asked cs || match c with LInit => true | _ => false end.
Proof. unfold asked. rewrite existsb_app. cbn. rewrite orb_false_r. reflexivity. Qed.
Lemma others_forestall cs : asked cs = false -> existsb (fun c => match c with LOther => true | _ => false end) cs = forestalled cs.
Proof. induction cs as [|x r IH]; cbn; auto. destruct x; cbn; auto; discriminate. Qed.

Lemma log_invariant cs : log_good cs (fst (log_run logging_new cs)).
Proof.
  induction cs as [|c cs IH] using rev_ind; [repeat split|]. rewrite log_run_app. cbn [fst]. destruct (log_run logging_new cs) as [s bs]. cbn [fst] in *.
  destruct IH as (A & B & C). unfold log_good. rewrite level_snoc, forestalled_snoc, asked_snoc. pose proof (others_forestall cs) as Hf.
  destruct c; cbn [log_run log_step fst andb orb].
  - rewrite C. destruct (asked cs) eqn:Ea.
    + destruct (forestalled cs); cbn [fst negb andb orb]; rewrite A, B, C; repeat split.
    + rewrite Hf by auto. rewrite B. destruct (forestalled cs) eqn:Ef; cbn [fst negb andb orb lg_max lg_installed lg_once]; rewrite ?A; repeat split; auto.
  - rewrite ?orb_false_r, ?andb_true_r, B. destruct (forestalled cs) eqn:Ef; cbn [orb]; [rewrite ?A, ?B, ?C; destruct (asked cs); repeat split; auto|].
    destruct (asked cs) eqn:Ea; cbn [negb lg_max lg_installed lg_once]; rewrite ?A, ?B, ?C; repeat split; auto.
  - rewrite ?orb_false_r, ?andb_false_r, ?orb_false_r. cbn. repeat split; auto.
  - rewrite ?orb_false_r, ?andb_false_r, ?orb_false_r. cbn. repeat split; auto.
  - rewrite ?orb_false_r, ?andb_false_r, ?orb_false_r. destruct ((l <=? lg_max s) && _); cbn; repeat split; auto.
Qed.

(** Logger::init panics exactly when the application had installed a logger of its
    own before the first Logger::init; no other call panics. *)
Theorem C126_init cs c : snd (log_step (fst (log_run logging_new cs)) c) = true <-> c = LInit /\ forestalled cs = true.
Proof.
  destruct (log_invariant cs) as (A & B & C). destruct c; cbn [log_step snd]; split; intro H; try discriminate; try (destruct H; discriminate).
  - split; auto. rewrite C, B in H. destruct (asked cs), (forestalled cs); cbn in H; congruence.
  - destruct H as [_ H]. rewrite C, B, H. destruct (asked cs); reflexivity.
Qed.
(** A record is printed exactly when Logger::init was called, the application was
    not first, and the record's level is in force. *)
Theorem C126_printed cs l text :
  lg_lines (fst (log_step (fst (log_run logging_new cs)) (LRecord l text))) =
  lg_lines (fst (log_run logging_new cs)) ++ (if asked cs && negb (forestalled cs) && (l <=? level_after true 0 cs) && (l <=? 5) then [(l, text)] else []).
Proof.
  destruct (log_invariant cs) as (A & B & C). cbn [log_step fst]. rewrite A, B. unfold shared_level.
  destruct (asked cs), (forestalled cs), (l <=? level_after true 0 cs), (l <=? 5); cbn; rewrite ?app_nil_r; reflexivity.
Qed.
(** set_level, the method of Logger, changes nothing that is printed: the calls can
    be left out. *)
Theorem C126_level_refuted cs : lg_lines (fst (log_run logging_new cs)) =
  lg_lines (fst (log_run logging_new (filter (fun c => match c with LSetLevel _ => false | _ => true end) cs))).
Proof.
  assert (G : forall cs s s', lg_installed s = lg_installed s' -> lg_once s = lg_once s' -> lg_max s = lg_max s' -> lg_lines s = lg_lines s' ->
    lg_lines (fst (log_run s cs)) = lg_lines (fst (log_run s' (filter (fun c => match c with LSetLevel _ => false | _ => true end) cs)))).
  { clear cs. induction cs as [|c r IH]; intros [i o m ls w] [i' o' m' ls' w']; cbn [lg_installed lg_once lg_max lg_lines]; intros -> -> -> ->; auto.
    destruct c; cbn [filter log_run log_step lg_installed lg_once lg_max lg_lines lg_own].
    - destruct o'; [destruct i'|..]; match goal with |- context [log_run ?x r] => pose proof (IH x) as X end;
        match goal with |- context [log_run ?x (filter _ r)] => specialize (X x eq_refl eq_refl eq_refl eq_refl) end;
        repeat match goal with |- context [let '(_, _) := ?e in _] => destruct e eqn:? end; cbn [fst] in *; exact X.
    - destruct i'; match goal with |- context [log_run ?x r] => pose proof (IH x) as X end;
        match goal with |- context [log_run ?x (filter _ r)] => specialize (X x eq_refl eq_refl eq_refl eq_refl) end;
        repeat match goal with |- context [let '(_, _) := ?e in _] => destruct e eqn:? end; cbn [fst] in *; exact X.
    - match goal with |- context [log_run ?x r] => pose proof (IH x) as X end;
        match goal with |- context [log_run ?x (filter _ r)] => specialize (X x eq_refl eq_refl eq_refl eq_refl) end;
        repeat match goal with |- context [let '(_, _) := ?e in _] => destruct e eqn:? end; cbn [fst] in *; exact X.
    - match goal with |- context [log_run ?x r] => pose proof (IH x) as X end.
      match goal with |- context [log_run ?x (filter _ r)] => specialize (X x eq_refl eq_refl eq_refl eq_refl) end.
      repeat match goal with |- context [let '(_, _) := ?e in _] => destruct e eqn:? end; cbn [fst] in *; exact X.
    - destruct (_ && _); match goal with |- context [log_run ?x r] => pose proof (IH x) as X end;
        match goal with |- context [log_run ?x (filter _ r)] => specialize (X x eq_refl eq_refl eq_refl eq_refl) end;
        repeat match goal with |- context [let '(_, _) := ?e in _] => destruct e eqn:? end; cbn [fst] in *; exact X. }
  apply G; reflexivity.
Qed.

Example C126_case : log_run logging_new [LRecord 3 1; LSetLevel 1; LInit; LRecord 5 2; LInit; LOther; LSetMax 3; LRecord 4 3; LRecord 3 4]
  = (Logging (Some true) OnceDone 3 [(5, 2); (3, 4)] 1, [false; false; false; false; false; false; false; false; false])
  /\ snd (log_run logging_new [LOther; LInit; LRecord 1 1; LInit]) = [false; true; false; true].
Proof. vm_compute. split; reflexivity. Qed.

Print Assumptions C125_manufactures.
Print Assumptions C125_objects.
Print Assumptions C125_added_partial.
Print Assumptions C125_instance_refuted.
Print Assumptions C125_listed_refuted.
Print Assumptions C126_init.
Print Assumptions C126_printed.
Print Assumptions C126_level_refuted.
Print Assumptions C125_calls.
