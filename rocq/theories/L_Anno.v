(** Annotation files and overrides. *)
From Coq Require Import NArith List Bool String Lia.
From Verif Require Import M_Base M_Registry M_Builder S_Anno.
Import ListNotations.
Local Open Scope list_scope.

Lemma last_said_app {T} (l l' : list (option T)) : last_said (l ++ l') = match last_said l' with Some v => Some v | None => last_said l end.
Proof. induction l as [|x l IH]; cbn; [now destruct (last_said l')|]. rewrite IH. destruct (last_said l'); [reflexivity|]. reflexivity. Qed.
Lemma attr_app a r r' : attr a (r ++ r') = match attr a r' with Some v => Some v | None => attr a r end.
Proof. unfold attr. rewrite map_app. apply last_said_app. Qed.
Lemma attr_none a r : attr a r = None <-> ~ In a (map fst r).
Proof.
  induction r as [|[b v] r IH]; [cbn; tauto|]. change ((b, v) :: r) with ([(b, v)] ++ r)%list. rewrite attr_app. cbn [app map fst In].
  destruct (attr a r) eqn:E.
  - split; [discriminate|]. intros H. exfalso. apply H. right. destruct (in_dec string_dec a (map fst r)) as [I|I]; [exact I|]. apply IH in I. discriminate.
  - unfold attr. cbn. destruct (String.eqb_spec b a) as [->|NE]; [split; [discriminate|intros H; exfalso; auto]|].
    split; [intros _ [H|H]; [congruence|]; exact (proj1 IH eq_refl H)|reflexivity].
Qed.
Lemma attr_filter a (r v : arec) : attr a v = None -> attr a (filter (fun p => negb (existsb (fun q => String.eqb (fst q) (fst p)) v)) r) = attr a r.
Proof.
  intros H. induction r as [|[b x] r IH]; [reflexivity|]. cbn [filter fst].
  change (attr a ((b, x) :: r)) with (attr a ([(b, x)] ++ r)). rewrite attr_app.
  destruct (existsb (fun q => String.eqb (fst q) b) v) eqn:E; cbn [negb].
  - rewrite IH. destruct (attr a r); [reflexivity|]. unfold attr. cbn. destruct (String.eqb_spec b a) as [->|]; [|reflexivity].
    apply existsb_exists in E. destruct E as ([c y] & I & Q). cbn [fst] in Q. apply String.eqb_eq in Q. subst c.
    exfalso. apply attr_none in H. apply H. apply (in_map fst) in I. exact I.
  - change ((b, x) :: filter (fun p => negb (existsb (fun q => String.eqb (fst q) (fst p)) v)) r)
      with ([(b, x)] ++ filter (fun p => negb (existsb (fun q => String.eqb (fst q) (fst p)) v)) r)%list. rewrite attr_app, IH. reflexivity.
Qed.
Lemma attr_jupdate a o v : attr a (jupdate o v) = match attr a v with Some x => Some x | None => attr a o end.
Proof. unfold jupdate. rewrite attr_app. destruct (attr a v) eqn:E; [reflexivity|]. now apply attr_filter. Qed.
Lemma overrides_acc ovs mn a : forall acc, attr a (fold_left (fun acc (t : string * string * string) =>
    let '(m, b, v) := t in if String.eqb m mn then jupdate acc [(b, v)] else acc) ovs acc) =
  match override ovs mn a with Some v => Some v | None => attr a acc end.
Proof.
  induction ovs as [|[[m b] v] ovs IH]; intros acc; [reflexivity|]. cbn [fold_left]. rewrite IH. unfold override. cbn [map last_said].
  fold (override ovs mn a). change (last_said (map _ ovs)) with (override ovs mn a). destruct (override ovs mn a); [reflexivity|].
  destruct (String.eqb m mn); cbn [andb]; [|reflexivity]. rewrite attr_jupdate. unfold attr at 1. cbn. now destruct (String.eqb b a).
Qed.
Lemma overrides_attr ovs mn a : attr a (overrides_of ovs mn) = override ovs mn a.
Proof. unfold overrides_of. rewrite overrides_acc. now destruct (override ovs mn a). Qed.

(** The content of the registry after the records [done]. *)
Definition recorded (ovs : list (string * string * string)) (done : list (string * arec)) (reg : list (string * anno)) : Prop :=
  forall mn, mfind reg mn = match map (fun p => jupdate (snd p) (overrides_of ovs mn)) (filter (fun p => String.eqb (fst p) mn) done) with
    | [] => None | l => Some l end.
Lemma recorded_nil ovs : recorded ovs [] []. Proof. intros mn. reflexivity. Qed.
Lemma recorded_add ovs done reg mn r : recorded ovs done reg ->
  recorded ovs (done ++ [(mn, r)]) (madd reg mn (match mfind reg mn with None => [jupdate r (overrides_of ovs mn)] | Some old => (old ++ [jupdate r (overrides_of ovs mn)])%list end)).
Proof.
  intros H m. rewrite filter_app, map_app. unfold madd. cbn [mfind filter fst]. destruct (String.eqb_spec mn m) as [<-|NE].
  - rewrite (H mn). cbn [map snd]. destruct (map _ (filter (fun p => String.eqb (fst p) mn) done)); reflexivity.
  - cbn [map]. rewrite app_nil_r. apply H.
Qed.
Lemma mfind_recorded ovs done reg mn : recorded ovs done reg -> mfind reg mn = None <-> ~ In mn (map fst done).
Proof.
  intros H. rewrite (H mn). clear H. induction done as [|[m r] done IH]; [cbn; tauto|]. cbn [filter fst map In].
  destruct (String.eqb_spec m mn) as [->|NE].
  - cbn. split; [discriminate|tauto].
  - rewrite IH. tauto.
Qed.
Lemma anno_file_lemma ovs recs : forall done seen reg, recorded ovs (done ++ seen) reg -> NoDup (map fst seen) ->
  match anno_file ovs (rev (map fst seen)) recs reg with
  | Ok reg' => recorded ovs (done ++ seen ++ recs) reg' /\ NoDup (map fst (seen ++ recs))
  | Throw EAnnotationNotUniqueInFile => ~ NoDup (map fst (seen ++ recs))
  | _ => False
  end.
Proof.
  induction recs as [|[mn r] recs IH]; intros done seen reg H N; cbn [anno_file].
  - rewrite !app_nil_r. auto.
  - assert (RV : mn :: rev (map fst seen) = rev (map fst (seen ++ [(mn, r)]))) by (now rewrite map_app, rev_app_distr).
    pose proof (recorded_add ovs _ _ mn r H) as H'. rewrite <- app_assoc in H'.
    assert (A : (seen ++ (mn, r) :: recs)%list = ((seen ++ [(mn, r)]) ++ recs)%list) by (now rewrite <- app_assoc).
    assert (GO : ~ In mn (map fst seen) -> NoDup (map fst (seen ++ [(mn, r)]))).
    { intros I. rewrite map_app. cbn [map fst]. clear - N I. induction (map fst seen) as [|x l IHl]; [constructor; [tauto|constructor]|].
      apply NoDup_cons_iff in N. destruct N as [N1 N2]. cbn [app]. constructor.
      - rewrite in_app_iff. intros [Q|[Q|[]]]; [auto|]. subst x. apply I. now left.
      - apply IHl; [exact N2|]. intros Q. apply I. now right. }
    destruct (mfind reg mn) as [old|] eqn:E.
    + destruct (existsb (String.eqb mn) (rev (map fst seen))) eqn:X.
      * apply existsb_exists in X. destruct X as (m & X1 & X2). apply String.eqb_eq in X2. subst m. apply in_rev in X1.
        intros Q. rewrite map_app in Q. cbn [map fst] in Q. apply NoDup_remove_2 in Q. apply Q. apply in_app_iff. now left.
      * rewrite RV, A. apply IH; [exact H'|]. apply GO. intros I. apply in_rev in I. rewrite <- Bool.not_true_iff_false in X. apply X.
        apply existsb_exists. exists mn. split; [exact I|apply String.eqb_refl].
    + rewrite RV, A. apply IH; [exact H'|]. apply GO. apply (mfind_recorded _ _ _ mn H) in E. rewrite map_app, in_app_iff in E. tauto.
Qed.
Lemma anno_files_lemma ovs files : forall done reg, recorded ovs done reg ->
  match anno_files ovs files reg with
  | Ok reg' => recorded ovs (done ++ List.concat files) reg' /\ ~ repeats files
  | Throw EAnnotationNotUniqueInFile => repeats files
  | _ => False
  end.
Proof.
  induction files as [|f files IH]; intros done reg H; cbn [anno_files List.concat].
  - rewrite app_nil_r. split; [exact H|]. intros (f & [] & _).
  - pose proof (anno_file_lemma ovs f done [] reg) as F. rewrite app_nil_r in F. specialize (F H (NoDup_nil _)). cbn [map rev app] in F.
    destruct (anno_file ovs [] f reg) as [reg'|e| |]; cbn [rbind]; try contradiction.
    + destruct F as [F1 F2]. specialize (IH _ _ F1). rewrite <- app_assoc in IH.
      destruct (anno_files ovs files reg') as [reg''|e| |]; try contradiction.
      * destruct IH as [I1 I2]. split; [exact I1|]. intros (f' & [<-|Q] & R); [contradiction|]. apply I2. exists f'. auto.
      * destruct e; try contradiction. destruct IH as (f' & I1 & I2). exists f'. split; [now right|exact I2].
    + destruct e; try contradiction. exists f. split; [now left|exact F].
Qed.
Lemma anno_attr_map ovs mn a l : l <> [] -> anno_attr a (map (fun p : string * arec => jupdate (snd p) (overrides_of ovs mn)) (filter (fun p => String.eqb (fst p) mn) l)) =
  match filter (fun p => String.eqb (fst p) mn) l with [] => None | _ => match override ovs mn a with Some v => Some v | None => anno_attr a (map snd (filter (fun p => String.eqb (fst p) mn) l)) end end.
Proof.
  intros _. induction (filter (fun p => String.eqb (fst p) mn) l) as [|p m IH]; [reflexivity|]. unfold anno_attr in *. cbn [map last_said].
  rewrite attr_jupdate, overrides_attr, IH. destruct m; cbn; [reflexivity|]. destruct (override ovs mn a); [reflexivity|].
  reflexivity.
Qed.
Lemma filed_filter files mn a : filed files mn a = anno_attr a (map snd (filter (fun p => String.eqb (fst p) mn) (List.concat files))).
Proof.
  unfold filed, anno_attr. induction (List.concat files) as [|[m r] l IH]; [reflexivity|]. cbn [map last_said filter fst snd]. rewrite IH.
  destruct (String.eqb m mn); cbn [map last_said snd]; [reflexivity|].
  match goal with |- match ?x with _ => _ end = _ => now destruct x end.
Qed.
Lemma listed_concat files mn : in_files files mn <-> In mn (map fst (List.concat files)).
Proof.
  unfold in_files. rewrite in_map_iff. split.
  - intros (f & F & M). apply in_map_iff in M. destruct M as (p & E & P). exists p. split; [exact E|]. apply in_concat. eauto.
  - intros (p & E & P). apply in_concat in P. destruct P as (f & F & P). exists f. split; [exact F|]. apply in_map_iff. eauto.
Qed.
Lemma attributes_lemma ovs files reg : anno_files ovs files [] = Ok reg -> forall mn,
  match mfind reg mn with
  | None => ~ in_files files mn
  | Some x => in_files files mn /\ forall a, anno_attr a x = match override ovs mn a with Some v => Some v | None => filed files mn a end
  end.
Proof.
  intros E mn. pose proof (anno_files_lemma ovs files [] [] (recorded_nil ovs)) as L. rewrite E in L. destruct L as [R _]. cbn [app] in R.
  destruct (mfind reg mn) as [x|] eqn:F.
  - split.
    + rewrite listed_concat. destruct (in_dec string_dec mn (map fst (List.concat files))) as [I|I]; [exact I|].
      apply (mfind_recorded _ _ _ _ R) in I. congruence.
    + intros a. rewrite (R mn) in F. rewrite filed_filter.
      pose proof (anno_attr_map ovs mn a (List.concat files)) as M.
      destruct (filter (fun p => String.eqb (fst p) mn) (List.concat files)) as [|p l] eqn:FL; [discriminate|].
      cbn [map] in F. injection F as <-. rewrite <- FL in M. rewrite FL in M. apply M. intros Q. rewrite Q in FL. discriminate.
  - rewrite listed_concat. now apply (mfind_recorded _ _ _ _ R).
Qed.
Lemma repeats_lemma ovs files : (repeats files -> anno_files ovs files [] = Throw EAnnotationNotUniqueInFile) /\
  (~ repeats files -> exists reg, anno_files ovs files [] = Ok reg).
Proof.
  pose proof (anno_files_lemma ovs files [] [] (recorded_nil ovs)) as L.
  destruct (anno_files ovs files []) as [reg|e| |]; try contradiction.
  - split; [intros R; destruct L; contradiction|eauto].
  - destruct e; try contradiction. split; [reflexivity|contradiction].
Qed.
