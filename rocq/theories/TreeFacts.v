(** * Facts about account trees *)
From Verif Require Import Base BaseFacts GoTime Strconv Journal Account Spec JournalFacts TreeSpec.

Arguments get {V} k l : simpl never.
Arguments put {V} k v l : simpl never.
Arguments del {V} k l : simpl never.

Section AccountInd.
Variable P : account -> Prop.
Hypothesis H : forall d ch, Forall (fun kc => P (snd kc)) ch -> P (Acc d ch).
Fixpoint account_ind' (a : account) : P a :=
  match a with
  | Acc d ch => H d ch ((fix go (l : list (str * account)) : Forall (fun kc => P (snd kc)) l :=
      match l with
      | [] => Forall_nil _
      | kc :: l' => Forall_cons kc (account_ind' (snd kc)) (go l')
      end) ch)
  end.
End AccountInd.

(** ** Keys *)

Lemma get_in : forall V k (l : list (str * V)) v, get k l = Some v -> In (k, v) l.
Proof. intros. eapply assoc_in; [apply str_eqb_eq | exact H]. Qed.

Lemma in_get : forall V k (l : list (str * V)) v, NoDup (map fst l) -> In (k, v) l -> get k l = Some v.
Proof. intros. eapply in_assoc; eauto. apply str_eqb_eq. Qed.

Lemma get_none : forall V k (l : list (str * V)), get k l = None <-> ~ In k (map fst l).
Proof. intros. apply assoc_none. apply str_eqb_eq. Qed.

Lemma get_put_same : forall V k v (l : list (str * V)), get k (put k v l) = Some v.
Proof. intros. apply assoc_set_same. apply str_eqb_eq. Qed.

Lemma get_put_other : forall V k k' v (l : list (str * V)), k <> k' -> get k' (put k v l) = get k' l.
Proof. intros. apply assoc_set_other; auto. apply str_eqb_eq. Qed.

Lemma nodup_put : forall V k v (l : list (str * V)), NoDup (map fst l) -> NoDup (map fst (put k v l)).
Proof. intros. apply nodup_assoc_set; auto. apply str_eqb_eq. Qed.

Lemma in_put : forall V k v (l : list (str * V)) k' v', NoDup (map fst l) ->
  In (k', v') (put k v l) -> (k' = k /\ v' = v) \/ (k' <> k /\ In (k', v') l).
Proof.
  intros V k v l k' v' N H. apply in_get in H; [|now apply nodup_put].
  destruct (str_eq_dec k k') as [->|D].
  - rewrite get_put_same in H. inversion H; auto.
  - rewrite get_put_other in H by exact D. right. split; [congruence|]. now apply get_in.
Qed.

(** ** Look-up *)

Lemma node_nil : forall a x, node a [] x <-> x = acc_data a.
Proof. intros [d ch] x. split; [intro H; inversion H; reflexivity|intros ->; constructor]. Qed.
Lemma node_cons : forall d ch k q x, node (Acc d ch) (k :: q) x <-> exists c, In (k, c) ch /\ node c q x.
Proof. intros. split; [intro H; inversion H; subst; eauto|intros (c & I & H); econstructor; eauto]. Qed.
Lemma subtree_nil : forall a b, subtree a [] b <-> b = a.
Proof. intros a b. split; [intro H; inversion H; reflexivity|intros ->; constructor]. Qed.
Lemma subtree_cons : forall d ch k q b, subtree (Acc d ch) (k :: q) b <-> exists c, In (k, c) ch /\ subtree c q b.
Proof. intros. split; [intro H; inversion H; subst; eauto|intros (c & I & H); econstructor; eauto]. Qed.

Definition data_at (q : list str) (a : account) : option adata := option_map acc_data (find_at q a).

Lemma node_data_at : forall a q d, distinct a -> (node a q d <-> data_at q a = Some d).
Proof.
  intro a. induction a as [d0 ch IH] using account_ind'. intros q d D.
  inversion D as [d1 ch1 N Dc]; subst. rewrite Forall_forall in IH. destruct q as [|k q].
  - unfold data_at. cbn. split; intro H; inversion H; subst; constructor.
  - unfold data_at. cbn [find_at acc_children]. split.
    + intro H. inversion H; subst. rewrite (in_get _ _ _ _ N H5). apply (IH _ H5); eauto.
    + intro H. destruct (get k ch) as [c|] eqn:G; [|discriminate]. apply get_in in G.
      apply NodeBelow with c; auto. apply (IH _ G); eauto.
Qed.

Lemma node_fun : forall a q d d', distinct a -> node a q d -> node a q d' -> d = d'.
Proof. intros a q d d' D H H'. apply node_data_at in H, H'; auto. congruence. Qed.

Lemma node_split : forall a q r d, node a (q ++ r) d -> exists d', node a q d'.
Proof.
  intros a q r d. revert a. induction q; intros b H.
  - destruct b. eexists. constructor.
  - inversion H; subst. destruct (IHq _ H5) as [d' X]. exists d'. econstructor; eauto.
Qed.

Lemma data_at_cons : forall k q d ch, data_at (k :: q) (Acc d ch) =
  match get k ch with None => None | Some c => data_at q c end.
Proof. intros. unfold data_at. cbn. destruct (get k ch); reflexivity. Qed.

Lemma data_at_nil : forall d ch, data_at [] (Acc d ch) = Some d.
Proof. reflexivity. Qed.

Lemma prefixb_iff : forall q p, prefixb q p = true <-> prefix q p.
Proof.
  induction q; intro p; cbn.
  - split; auto. intros _. exists p. reflexivity.
  - destruct p.
    + split; [discriminate|]. intros [r H]. discriminate.
    + rewrite andb_true_iff, str_eqb_eq, IHq. split.
      * intros [-> [r ->]]. exists r. reflexivity.
      * intros [r H]. inversion H; subst. split; auto. exists r. reflexivity.
Qed.

Lemma prefixb_refl : forall q, prefixb q q = true.
Proof. intro. apply prefixb_iff. exists []. now rewrite app_nil_r. Qed.

Lemma find_distinct : forall p a x, distinct a -> find_at p a = Some x -> distinct x.
Proof.
  induction p as [|k p IH]; intros a x D F; cbn in F; [congruence|].
  destruct a as [d ch]. cbn in F. destruct (get k ch) as [c|] eqn:G; [|discriminate].
  inversion D as [d1 ch1 N Dc]; subst. apply get_in in G. exact (IH c x (Dc _ _ G) F).
Qed.

(** ** update_at *)

Lemma update_at_distinct : forall p f a, distinct a ->
  (forall x, find_at p a = Some x -> distinct x -> distinct (f x)) -> distinct (update_at p f a).
Proof.
  induction p as [|k p IH]; intros f a D F.
  - apply F; auto.
  - destruct a as [d ch]. cbn. destruct (get k ch) as [c|] eqn:G; [|exact D].
    inversion D as [d1 ch1 N Dc]; subst. constructor; [now apply nodup_put|].
    intros k' c' I. apply in_put in I; [|exact N]. destruct I as [[-> ->]|[_ I]]; eauto.
    apply IH; [eapply Dc; apply get_in; eauto|]. intros x Fx. apply F. cbn. now rewrite G.
Qed.

Lemma update_at_data : forall p f a, (forall x, acc_data (f x) = acc_data x -> True) ->
  forall q, find_at p a <> None ->
  data_at q (update_at p f a) =
  if prefixb p q then match find_at p a with Some x => data_at (skipn (length p) q) (f x) | None => None end
  else data_at q a.
Proof.
  intros p f a _. revert a. induction p as [|k p IH]; intros a q X.
  - cbn. reflexivity.
  - destruct a as [d ch]. cbn [update_at find_at acc_children prefixb] in *.
    destruct (get k ch) as [c|] eqn:G; [|contradiction].
    destruct q as [|k' q]; [reflexivity|]. rewrite !data_at_cons.
    destruct (str_eqb k k') eqn:E; cbn [andb].
    + apply str_eqb_eq in E. subst k'. rewrite get_put_same, G. rewrite IH by exact X. reflexivity.
    + apply str_eqb_neq in E. now rewrite get_put_other by exact E.
Qed.

Lemma find_at_app : forall p q a, find_at (p ++ q) a =
  match find_at p a with None => None | Some x => find_at q x end.
Proof.
  induction p; intros q b; cbn; [reflexivity|]. destruct (get a (acc_children b)); auto.
Qed.

Lemma data_at_app : forall p q a, data_at (p ++ q) a =
  match find_at p a with None => None | Some x => data_at q x end.
Proof. intros. unfold data_at. rewrite find_at_app. destruct (find_at p a); reflexivity. Qed.

(** ** FindOrCreateAccount *)

Lemma findChild_spec : forall comps a, comps <> [] ->
  exists p r, findChild a comps = Some (p, r) /\ comps = p ++ r /\ find_at p a <> None /\
    match r with [] => True | c :: _ => forall x, find_at p a = Some x -> get c (acc_children x) = None end.
Proof.
  induction comps as [|c rest IH]; intros a N; [contradiction|]. cbn.
  destruct (get c (acc_children a)) as [child|] eqn:G.
  - destruct rest as [|c2 rest].
    + exists [c], []. repeat split; auto. cbn. rewrite G. discriminate.
    + destruct (IH child) as (p & r & E & S & F & R); [discriminate|].
      exists (c :: p), r. rewrite E. cbn [find_at]. rewrite G. repeat split; auto.
      cbn. now rewrite S.
  - exists [], (c :: rest). repeat split; auto; cbn; try discriminate. now intros x [= <-].
Qed.

(** Data of a new account reached by [q] below the account with names [anc]. *)
Fixpoint fresh_at (anc : list str) (comps q : list str) : option adata :=
  match comps, q with
  | c :: comps', k :: q' =>
      if str_eqb k c then
        match q' with
        | [] => Some (AD c (createPath c anc) (Amount [] 0) [])
        | _ => fresh_at (c :: anc) comps' q'
        end
      else None
  | _, _ => None
  end.

Lemma newAccountWithChildren_data : forall rest anc c q,
  data_at q (newAccountWithChildren anc c rest) = fresh_at anc (c :: rest) (c :: q).
Proof.
  induction rest as [|c' rest IH]; intros anc c q; cbn [fresh_at]; rewrite str_eqb_refl.
  - destruct q; [reflexivity|]. reflexivity.
  - destruct q as [|k q]; [reflexivity|]. cbn [newAccountWithChildren]. rewrite data_at_cons.
    unfold get. cbn [assoc]. destruct (str_eqb k c') eqn:E; [|reflexivity].
    rewrite IH. apply str_eqb_eq in E. subst. cbn [fresh_at]. rewrite str_eqb_refl. reflexivity.
Qed.

Lemma newAccountWithChildren_distinct : forall rest anc c, distinct (newAccountWithChildren anc c rest).
Proof.
  induction rest as [|c' rest IH]; intros anc c; cbn; constructor; cbn.
  - constructor.
  - intros ? ? [].
  - constructor; [auto|constructor].
  - intros k x [E|[]]. inversion E; subst. apply IH.
Qed.

Lemma newAccountWithChildren_named : forall rest anc c, named (newAccountWithChildren anc c rest).
Proof.
  induction rest as [|c' rest IH]; intros anc c; cbn; constructor; cbn.
  - intros ? ? [].
  - intros k x [E|[]]. inversion E; subst. split; [|apply IH]. destruct rest; reflexivity.
Qed.

Lemma fresh_at_prefix : forall comps anc q d, fresh_at anc comps q = Some d -> prefixb q comps = true.
Proof.
  induction comps as [|c comps IH]; intros anc q d H; [destruct q; discriminate|].
  destruct q as [|k q]; [discriminate|]. cbn in *. destruct (str_eqb k c); [|discriminate].
  destruct q as [|k' q]; [reflexivity|]. eapply IH; eauto.
Qed.

Lemma fresh_at_some : forall comps anc q, q <> [] -> prefixb q comps = true ->
  fresh_at anc comps q = Some (AD (last q []) (createPath (last q []) (rev (removelast q) ++ anc)) (Amount [] 0) []).
Proof.
  induction comps as [|c comps IH]; intros anc q N H; destruct q as [|k q]; try contradiction; [discriminate|].
  cbn in H. apply andb_true_iff in H as [E H]. cbn [fresh_at]. rewrite E. apply str_eqb_eq in E. subst k.
  destruct q as [|k' q]; [reflexivity|]. rewrite IH by (auto; discriminate).
  change (last (c :: k' :: q) []) with (last (k' :: q) []).
  change (removelast (c :: k' :: q)) with (c :: removelast (k' :: q)). cbn [rev]. now rewrite <- app_assoc.
Qed.

(** Names on the way: for a tree stored under its own names, the keys. *)
Lemma named_names_up : forall p a anc, named a -> find_at p a <> None ->
  names_up p a anc = rev p ++ acc_name a :: anc.
Proof.
  induction p as [|k p IH]; intros a anc N F; cbn; [reflexivity|].
  cbn in F. destruct a as [d ch]. cbn in *. destruct (get k ch) as [c|] eqn:G; [|contradiction].
  inversion N as [d1 ch1 Nc]; subst. destruct (Nc _ _ (get_in _ _ _ _ G)) as [E Nn]. rewrite IH by auto.
  unfold acc_name at 1. rewrite <- E. cbn. now rewrite <- app_assoc.
Qed.

Lemma update_at_named : forall p f a, named a -> distinct a ->
  (forall x, find_at p a = Some x -> named x -> named (f x) /\ a_name (acc_data (f x)) = a_name (acc_data x)) ->
  named (update_at p f a) /\ a_name (acc_data (update_at p f a)) = a_name (acc_data a).
Proof.
  induction p as [|k p IH]; intros f a N D F.
  - apply F; auto.
  - destruct a as [d ch]. cbn. destruct (get k ch) as [c|] eqn:G; [|split; [exact N|reflexivity]].
    inversion N as [d1 ch1 Nc]; subst. inversion D as [d2 ch2 Nd Dc]; subst.
    pose proof (get_in _ _ _ _ G) as I. destruct (Nc _ _ I) as [E Nn].
    destruct (IH f c Nn (Dc _ _ I)) as [A B].
    { intros x Fx. apply F. cbn. now rewrite G. }
    split; [|reflexivity]. constructor. intros k' c' I'. apply in_put in I'; [|exact Nd].
    destruct I' as [[-> ->]|[_ I']]; [|eauto]. rewrite B. auto.
Qed.

Lemma foc_total : forall a comps, comps <> [] -> exists a', findOrCreateAccount a comps = Some a'.
Proof.
  intros a comps N. destruct (findChild_spec comps a N) as (p & r & E & _). unfold findOrCreateAccount.
  rewrite E. destruct r; eauto.
Qed.

Lemma foc_spec : forall a comps a', distinct a -> findOrCreateAccount a comps = Some a' ->
  exists p r anc, comps = p ++ r /\ distinct a' /\ (named a -> named a' /\ anc = rev p ++ [acc_name a]) /\
    acc_name a' = acc_name a /\
    (forall q, data_at q a' = match data_at q a with
                              | Some d => Some d
                              | None => if prefixb p q then fresh_at anc r (skipn (length p) q) else None
                              end) /\
    find_at p a <> None /\ (r <> [] -> forall q, prefixb p q = true -> prefixb q comps = true -> q <> p -> data_at q a = None).
Proof.
  intros a comps a' D H. unfold findOrCreateAccount in H.
  destruct comps as [|c0 cs]; [discriminate|].
  destruct (findChild_spec (c0 :: cs) a) as (p & r & E & S & F & R); [discriminate|]. rewrite E in H.
  destruct r as [|c rest].
  - inversion H; subst a'. exists p, [], (rev p ++ [acc_name a]). repeat split; auto; [|contradiction].
    intro q. destruct (data_at q a); [reflexivity|]. destruct (prefixb p q); [|reflexivity]. destruct (skipn _ q); reflexivity.
  - inversion H as [H1]; clear H. set (anc := names_up p a []).
    exists p, (c :: rest), anc. split; [exact S|]. split; [|split; [|split; [|split; [|split]]]].
    + apply update_at_distinct; auto. intros [d ch] Fx Dx. inversion Dx as [? ? Nx Dc]; subst.
      constructor; [now apply nodup_put|]. intros k' c' I. apply in_put in I; auto.
      destruct I as [[-> ->]|[_ I]]; eauto. apply newAccountWithChildren_distinct.
    + intro N. split; [|unfold anc; rewrite named_names_up; auto].
      apply update_at_named; auto. intros [d ch] Fx Nx. split; [|reflexivity]. inversion Nx as [? ? Nc]; subst.
      assert (Dx : distinct (Acc d ch)).
      { eapply find_distinct; eauto. }
      inversion Dx; subst. constructor. intros k' c' I. apply in_put in I; auto.
      destruct I as [[-> ->]|[_ I]]; eauto. split; [destruct rest; reflexivity|apply newAccountWithChildren_named].
    + unfold acc_name. destruct p as [|k p]; [destruct a; reflexivity|]. destruct a; cbn. destruct (get k ch); reflexivity.
    + intro q. rewrite update_at_data by auto. destruct (prefixb p q) eqn:P; [|destruct (data_at q a); reflexivity].
      apply prefixb_iff in P as [s ->]. rewrite data_at_app. rewrite skipn_app, skipn_all, Nat.sub_diag. cbn [skipn app].
      destruct (find_at p a) as [[d ch]|] eqn:Fp; [|contradiction].
      destruct s as [|k s]; [reflexivity|]. rewrite !data_at_cons. specialize (R _ eq_refl). cbn in R.
      destruct (str_eq_dec c k) as [->|Dk].
      * rewrite get_put_same, R. rewrite newAccountWithChildren_data. reflexivity.
      * rewrite get_put_other by exact Dk. cbn [fresh_at]. destruct (str_eqb k c) eqn:Ek; [apply str_eqb_eq in Ek; congruence|].
        destruct (get k ch) as [x|]; [|reflexivity]. destruct (data_at s x); reflexivity.
    + exact F.
    + intros _ q Pq Qc Nq. apply prefixb_iff in Pq as [s ->]. rewrite data_at_app.
      destruct (find_at p a) as [x|] eqn:Fp; [|reflexivity]. destruct s as [|k s]; [rewrite app_nil_r in Nq; contradiction|].
      rewrite S in Qc. apply prefixb_iff in Qc as [t Qc]. rewrite <- app_assoc in Qc. apply app_inv_head in Qc.
      inversion Qc; subst. unfold data_at. cbn. now rewrite (R _ eq_refl).
Qed.

(** The result of FindOrCreateAccount on a tree stored under its own names. *)
Lemma data_at_prefix : forall p q a, prefixb q p = true -> find_at p a <> None -> data_at q a <> None.
Proof.
  intros p q a P F. apply prefixb_iff in P as [r ->]. rewrite find_at_app in F. unfold data_at.
  destruct (find_at q a); [discriminate|contradiction].
Qed.

Lemma prefix_compare : forall p q c, prefixb p c = true -> prefixb q c = true ->
  prefixb p q = true \/ prefixb q p = true.
Proof.
  induction p as [|x p IH]; intros q c P Q; [left; reflexivity|].
  destruct q as [|y q]; [right; reflexivity|]. destruct c as [|z c]; [discriminate|]. cbn in *.
  apply andb_true_iff in P as [E1 P], Q as [E2 Q]. apply str_eqb_eq in E1, E2. subst.
  rewrite str_eqb_refl. cbn. eauto.
Qed.

Lemma foc_data : forall a comps a', distinct a -> named a -> findOrCreateAccount a comps = Some a' ->
  forall q, data_at q a' =
    match data_at q a with
    | Some d => Some d
    | None => if prefixb q comps
              then Some (AD (last q []) (createPath (last q []) (rev (removelast q) ++ [acc_name a])) (Amount [] 0) [])
              else None
    end.
Proof.
  intros a comps a' D N H q. destruct (foc_spec a comps a' D H) as (p & r & anc & S & _ & Nm & _ & Dt & F & _).
  destruct (Nm N) as [_ ->]. rewrite Dt. destruct (data_at q a) eqn:Da; [reflexivity|]. subst comps.
  destruct (prefixb q (p ++ r)) eqn:Q.
  - assert (P : prefixb p (p ++ r) = true) by (apply prefixb_iff; exists r; reflexivity).
    destruct (prefix_compare _ _ _ P Q) as [X|X].
    + rewrite X. apply prefixb_iff in X as [s ->]. rewrite skipn_app, skipn_all, Nat.sub_diag. cbn [skipn app].
      apply prefixb_iff in Q as [t Q]. rewrite <- app_assoc in Q. apply app_inv_head in Q.
      destruct s as [|k s]; [rewrite app_nil_r in Da; unfold data_at in Da; destruct (find_at p a); [discriminate|contradiction]|].
      rewrite fresh_at_some; [|discriminate|apply prefixb_iff; exists t; exact Q].
      rewrite removelast_app by discriminate. rewrite rev_app_distr, <- app_assoc.
      replace (last (p ++ k :: s) []) with (last (k :: s) ([] : str)); [reflexivity|].
      clear. induction p; [reflexivity|]. cbn [app]. rewrite IHp. destruct (p ++ k :: s) eqn:E; [destruct p; discriminate|reflexivity].
    + exfalso. apply (data_at_prefix _ _ _ X F Da).
  - destruct (prefixb p q) eqn:P; [|reflexivity]. apply prefixb_iff in P as [s ->].
    rewrite skipn_app, skipn_all, Nat.sub_diag. cbn [skipn app].
    destruct (fresh_at _ r s) eqn:Fr; [|reflexivity]. apply fresh_at_prefix in Fr. apply prefixb_iff in Fr as [t ->].
    assert (X : prefixb (p ++ s) (p ++ s ++ t) = true) by (apply prefixb_iff; exists t; now rewrite app_assoc).
    congruence.
Qed.

Lemma foc_wf : forall a comps a', distinct a -> named a -> findOrCreateAccount a comps = Some a' ->
  distinct a' /\ named a' /\ acc_name a' = acc_name a.
Proof.
  intros a comps a' D N H. destruct (foc_spec a comps a' D H) as (p & r & anc & _ & D' & Nm & Na & _).
  destruct (Nm N). auto.
Qed.

Lemma foc_again : forall a comps, comps <> [] -> find_at comps a <> None -> findOrCreateAccount a comps = Some a.
Proof.
  intros a comps N F. destruct (findChild_spec comps a N) as (p & r & E & S & Fp & R).
  unfold findOrCreateAccount. rewrite E. destruct r as [|c r]; [reflexivity|]. exfalso.
  rewrite S, find_at_app in F. destruct (find_at p a) as [x|]; [|contradiction]. cbn in F.
  rewrite (R _ eq_refl) in F. contradiction.
Qed.

Lemma data_at_none : forall q a, data_at q a = None <-> find_at q a = None.
Proof. intros. unfold data_at. destruct (find_at q a); cbn; split; congruence. Qed.

Lemma foc_found : forall a comps a', distinct a -> named a -> findOrCreateAccount a comps = Some a' ->
  find_at comps a' <> None.
Proof.
  intros a comps a' D N H X. apply data_at_none in X. rewrite (foc_data _ _ _ D N H) in X.
  rewrite prefixb_refl in X. destruct (data_at comps a); discriminate.
Qed.

(** ** walkAncestors *)

Lemma walk_data : forall f path a, (forall d, a_name (fst (f d)) = a_name d) -> distinct a -> find_at path a <> None ->
  exists a' out, walkAncestors path f a = Some (a', out) /\ distinct a' /\ (named a -> named a') /\
    acc_name a' = acc_name a /\
    forall q, data_at q a' = if prefixb q path then option_map (fun d => fst (f d)) (data_at q a) else data_at q a.
Proof.
  intros f path a Hf. revert a. induction path as [|k path IH]; intros [d ch] D F; cbn [walkAncestors].
  - destruct (f d) as [d' out] eqn:E. exists (Acc d' ch), out. split; [reflexivity|]. inversion D; subst.
    split; [constructor; auto|]. split; [intro N; inversion N; subst; constructor; auto|]. split.
    + unfold acc_name. cbn. rewrite <- (Hf d), E. reflexivity.
    + intros [|k q]; cbn [prefixb]; [rewrite !data_at_nil; cbn; now rewrite E|]. now rewrite !data_at_cons.
  - cbn in F. destruct (get k ch) as [c|] eqn:G; [|contradiction]. inversion D as [d1 ch1 Nd Dc]; subst.
    pose proof (get_in _ _ _ _ G) as I.
    destruct (IH c (Dc _ _ I) F) as (c' & out & W & D' & N' & A' & Q'). rewrite W.
    destruct (f d) as [d' out'] eqn:E. exists (Acc d' (put k c' ch)), (out ++ out'). split; [reflexivity|].
    split; [|split; [|split]].
    + constructor; [now apply nodup_put|]. intros k' x I'. apply in_put in I'; auto. destruct I' as [[-> ->]|[_ I']]; eauto.
    + intro N. inversion N as [d2 ch2 Nc]; subst. constructor. intros k' x I'. apply in_put in I'; auto.
      destruct I' as [[-> ->]|[_ I']]; eauto. destruct (Nc _ _ I) as [Ek Nn]. split; auto.
      rewrite Ek. symmetry. exact A'.
    + unfold acc_name. cbn. rewrite <- (Hf d), E. reflexivity.
    + intros [|k' q]; cbn [prefixb]; [rewrite !data_at_nil; cbn; now rewrite E|]. rewrite !data_at_cons.
      destruct (str_eqb k' k) eqn:Ek; cbn [andb].
      * apply str_eqb_eq in Ek. subst k'. rewrite get_put_same, G. apply Q'.
      * apply str_eqb_neq in Ek. rewrite get_put_other by congruence. reflexivity.
Qed.

(** ** Changing the data of one account *)

Lemma update_data_at : forall (g : adata -> adata) f p a, (forall d, a_name (g d) = a_name d) ->
  (forall d ch, f (Acc d ch) = Acc (g d) ch) -> distinct a -> find_at p a <> None ->
  distinct (update_at p f a) /\ (named a -> named (update_at p f a)) /\ acc_name (update_at p f a) = acc_name a /\
  forall q, data_at q (update_at p f a) = if list_str_dec q p then option_map g (data_at q a) else data_at q a.
Proof.
  intros g f p a Hg Hf D F. split; [|split; [|split]].
  - apply update_at_distinct; auto. intros [d ch] _ Dx. rewrite Hf. inversion Dx; subst. constructor; auto.
  - intro N. apply update_at_named; auto. intros [d ch] _ Nx. rewrite Hf. split; [|apply Hg].
    inversion Nx; subst. constructor; auto.
  - unfold acc_name. destruct p as [|k p]; destruct a as [d ch]; cbn; [rewrite Hf; apply Hg|].
    destruct (get k ch); reflexivity.
  - intro q. rewrite update_at_data by auto. destruct (prefixb p q) eqn:P.
    + apply prefixb_iff in P as [s ->]. rewrite skipn_app, skipn_all, Nat.sub_diag. cbn [skipn app].
      rewrite data_at_app. destruct (find_at p a) as [[d ch]|] eqn:Fp; [|contradiction]. rewrite Hf.
      destruct (list_str_dec (p ++ s) p) as [E|E].
      * destruct s; [reflexivity|]. exfalso. apply (f_equal (@length _)) in E. rewrite app_length in E. cbn in E. lia.
      * destruct s as [|k s]; [rewrite app_nil_r in E; contradiction|]. now rewrite !data_at_cons.
    + destruct (list_str_dec q p) as [->|_]; [|reflexivity]. rewrite prefixb_refl in P. discriminate.
Qed.

(** ** Adding a posting *)

Definition post (p : posting) (d : adata) : adata :=
  AD (a_name d) (a_path d) (a_amount d) (a_postings d ++ [p]).

Lemma wire_spec : forall root p am, distinct root -> named root -> po_amount p = Some am ->
  exists r out, wireUpPosting root p = Some (r, out) /\ distinct r /\ named r /\ acc_name r = acc_name root /\
    forall q, data_at q r =
      if prefixb q (components p) then
        let d := match data_at q root with
                 | Some d => d
                 | None => AD (last q []) (createPath (last q []) (rev (removelast q) ++ [acc_name root])) (Amount [] 0) []
                 end in
        Some (fst (wire_add am (if list_str_dec q (components p) then post p d else d)))
      else data_at q root.
Proof.
  intros root p am D N A. unfold wireUpPosting. fold (components p). change (split colon (po_account p)) with (components p).
  destruct (foc_total root (components p)) as [r1 E]; [apply split_nonempty|]. rewrite E, A.
  destruct (foc_wf _ _ _ D N E) as (D1 & N1 & A1). pose proof (foc_found _ _ _ D N E) as F1.
  pose proof (foc_data _ _ _ D N E) as Q1.
  destruct (update_data_at (post p) (add_posting_to p) (components p) r1) as (D2 & N2 & A2 & Q2); auto.
  destruct (walk_data (wire_add am) (components p) (update_at (components p) (add_posting_to p) r1))
    as (r & out & W & D3 & N3 & A3 & Q3); auto.
  { rewrite <- data_at_none, Q2. destruct (list_str_dec _ _); [|contradiction]. rewrite <- data_at_none in F1.
    destruct (data_at _ r1); [discriminate|contradiction]. }
  exists r, out. split; [exact W|]. split; [exact D3|]. split; [auto|]. split; [congruence|].
  intro q. rewrite Q3, Q2, Q1. destruct (prefixb q (components p)) eqn:P.
  - destruct (data_at q root); destruct (list_str_dec q (components p)); reflexivity.
  - destruct (list_str_dec q (components p)) as [->|_]; [rewrite prefixb_refl in P; discriminate|].
    destruct (data_at q root); reflexivity.
Qed.

Lemma wire_none : forall root p, wireUpPosting root p = None -> po_amount p = None \/ ~ (distinct root /\ named root).
Proof.
  intros root p H. destruct (po_amount p) as [am|] eqn:A; [|auto]. right. intros [D N].
  destruct (wire_spec root p am D N A) as (r & out & E & _). congruence.
Qed.

(** ** A history of postings *)

Record built (ps : list posting) (root : account) : Prop := {
  b_distinct : distinct root;
  b_named : named root;
  b_name : acc_name root = RootID;
  b_none : forall q, data_at q root = None -> q <> [] /\ filter (below q) ps = [];
  b_some : forall q d, data_at q root = Some d ->
    (q = [] \/ exists p, In p ps /\ below q p = true) /\
    am_quantity (a_amount d) = wrap64 (total (filter (below q) ps)) /\
    am_commodity (a_amount d) = first_commodity (filter (below q) ps) /\
    a_postings d = filter (here q) ps /\
    a_name d = last q RootID /\
    a_path d = match q with [] => [] | _ => createPath (last q []) (rev (removelast q) ++ [RootID]) end }.

Lemma built_new : built [] (newAccount RootID).
Proof.
  split.
  - constructor; [constructor|intros ? ? []].
  - constructor. intros ? ? [].
  - reflexivity.
  - intros [|k q] H; [discriminate|]. split; [discriminate|reflexivity].
  - intros [|k q] d H; [|discriminate]. inversion H; subst d. repeat split; auto.
Qed.

Lemma total_one : forall p am, po_amount p = Some am -> total [p] = am_quantity am.
Proof. intros p am A. unfold total, sumZ, quantity. cbn. rewrite A. lia. Qed.

Lemma last_any : forall (q : list str) x y, q <> [] -> last q x = last q y.
Proof. induction q as [|a q IH]; intros x y N; [contradiction|]. destruct q; [reflexivity|]. cbn [last] in *. apply IH. discriminate. Qed.

Lemma named_commodities_app : forall a b, named_commodities (a ++ b) = named_commodities a ++ named_commodities b.
Proof. intros. unfold named_commodities. now rewrite map_app, filter_app. Qed.

Lemma below_here : forall q p, below q p = false -> here q p = false.
Proof.
  intros q p H. unfold here. destruct (list_str_dec q (components p)) as [->|_]; [|reflexivity].
  unfold below in H. rewrite prefixb_refl in H. discriminate.
Qed.

Lemma filter_below_here : forall q ps, filter (below q) ps = [] -> filter (here q) ps = [].
Proof.
  intros q ps. induction ps as [|x ps IH]; intro H; [reflexivity|]. cbn in *.
  destruct (below q x) eqn:B; [discriminate|]. rewrite (below_here _ _ B). auto.
Qed.

Lemma first_commodity_snoc : forall ps p, first_commodity (ps ++ [p]) =
  match first_commodity ps with [] => commodity_of p | c => c end.
Proof.
  intros ps p. unfold first_commodity. rewrite named_commodities_app.
  destruct (named_commodities ps) as [|c cs] eqn:E.
  - cbn. unfold named_commodities. cbn. destruct (commodity_of p); reflexivity.
  - cbn. assert (I : In c (named_commodities ps)) by (rewrite E; left; reflexivity).
    unfold named_commodities in I. apply filter_In in I as [_ I]. destruct c; [discriminate|reflexivity].
Qed.

Lemma built_add : forall ps root p r out, built ps root -> wireUpPosting root p = Some (r, out) ->
  built (ps ++ [p]) r.
Proof.
  intros ps root p r out B W. destruct B as [D N Nm Bn Bs].
  destruct (po_amount p) as [am|] eqn:A.
  2:{ unfold wireUpPosting in W. rewrite A in W. destruct (findOrCreateAccount _ _); discriminate. }
  destruct (wire_spec root p am D N A) as (r' & out' & W' & D' & N' & A' & Q). rewrite W in W'. inversion W'; subst r' out'.
  clear W W'. split; auto; [congruence| |].
  - intros q H. rewrite Q in H. destruct (prefixb q (components p)) eqn:P; [discriminate|].
    destruct (Bn _ H) as [X Y]. split; auto. rewrite filter_app, Y. cbn. unfold below. now rewrite P.
  - intros q d H. rewrite Q in H. rewrite !filter_app. cbn [filter].
    destruct (prefixb q (components p)) eqn:P; fold (below q p) in P; rewrite P.
    + split; [right; exists p; split; [apply in_or_app; right; left; reflexivity|exact P]|].
      rewrite total_app, (total_one p am A), first_commodity_snoc.
      set (d0 := match data_at q root with Some d => d | None => _ end) in H.
      assert (X : am_quantity (a_amount d0) = wrap64 (total (filter (below q) ps)) /\
                  am_commodity (a_amount d0) = first_commodity (filter (below q) ps) /\
                  a_postings d0 = filter (here q) ps /\ a_name d0 = last q RootID /\
                  a_path d0 = match q with [] => [] | _ => createPath (last q []) (rev (removelast q) ++ [RootID]) end).
      { subst d0. destruct (data_at q root) as [d0|] eqn:Dq; [apply (Bs _ _ Dq)|].
        destruct (Bn _ Dq) as [Nq Fq]. rewrite Fq, (filter_below_here _ _ Fq). cbn. repeat split.
        - now apply last_any.
        - rewrite Nm. destruct q; [contradiction|reflexivity]. }
      clearbody d0. destruct X as (X1 & X2 & X3 & X4 & X5).
      injection H as H. rewrite <- H. clear H. rewrite <- X2.
      replace (commodity_of p) with (am_commodity am) by (unfold commodity_of; now rewrite A).
      unfold here at 2.
      destruct (list_str_dec q (components p)) as [Eq|Eq]; unfold wire_add, post; cbn; rewrite ?X1, ?X3, ?app_nil_r;
        repeat split; auto; apply wrap64_add_l.
    + destruct (Bs _ _ H) as (Y1 & Y2 & Y3 & Y4 & Y5 & Y6). rewrite !app_nil_r, (below_here _ _ P), app_nil_r.
      repeat split; auto. destruct Y1 as [Y1|(x & I & Bx)]; [auto|]. right. exists x. split; [apply in_or_app; auto|auto].
Qed.

Lemma built_postings : forall ps ps0 j j' out, built ps0 (j_root j) -> j_addPostings j ps = (j', out, SOk) ->
  built (ps0 ++ ps) (j_root j').
Proof.
  induction ps as [|p ps IH]; intros ps0 j j' out B H; cbn in H.
  - inversion H; subst. now rewrite app_nil_r.
  - unfold j_addPosting in H. destruct (wireUpPosting (j_root j) p) as [[r o]|] eqn:W; [|discriminate].
    match type of H with context [j_addPostings ?x ps] => destruct (j_addPostings x ps) as [[j2 o2] st] eqn:E end.
    inversion H; subst. replace (ps0 ++ p :: ps) with ((ps0 ++ [p]) ++ ps) by (now rewrite <- app_assoc).
    eapply IH; [|exact E]. cbn. eapply built_add; eauto.
Qed.

Lemma built_total : forall ps ps0 j, built ps0 (j_root j) -> Forall (fun p => po_amount p <> None) ps ->
  exists j' out, j_addPostings j ps = (j', out, SOk).
Proof.
  induction ps as [|p ps IH]; intros ps0 j B F; cbn; [eauto|]. inversion F as [|? ? A F']; subst.
  destruct (po_amount p) as [am|] eqn:Ea; [|contradiction].
  destruct (wire_spec _ p am (b_distinct _ _ B) (b_named _ _ B) Ea) as (r & out & W & _).
  unfold j_addPosting. rewrite W.
  destruct (IH (ps0 ++ [p]) (Jrn (j_txns j) (j_ptxns j) (j_paths j) r)) as (j2 & o2 & E); [cbn; eapply built_add; eauto|auto|].
  rewrite E. eauto.
Qed.

(** ** Subtrees *)

Lemma subtree_find : forall a q b, distinct a -> (subtree a q b <-> find_at q a = Some b).
Proof.
  intro a. induction a as [d0 ch IH] using account_ind'. intros q b D.
  inversion D as [d1 ch1 N Dc]; subst. rewrite Forall_forall in IH. destruct q as [|k q].
  - cbn. split; intro H; inversion H; subst; constructor.
  - cbn [find_at acc_children]. split.
    + intro H. inversion H; subst. rewrite (in_get _ _ _ _ N H5). apply (IH _ H5); eauto.
    + intro H. destruct (get k ch) as [c|] eqn:G; [|discriminate]. apply get_in in G.
      apply SubBelow with c; auto. apply (IH _ G); eauto.
Qed.

Lemma subtree_node : forall a q b, subtree a q b -> node a q (acc_data b).
Proof. intros a q b H. induction H; [destruct a; constructor|econstructor; eauto]. Qed.

Lemma node_subtree : forall a q d, node a q d -> exists b, subtree a q b /\ acc_data b = d.
Proof.
  intros a q d H. induction H.
  - eexists. split; [constructor|reflexivity].
  - destruct IHnode as (b & X & Y). exists b. split; [econstructor; eauto|exact Y].
Qed.

Lemma subtree_distinct : forall a q b, distinct a -> subtree a q b -> distinct b.
Proof. intros a q b D H. apply subtree_find in H; auto. eapply find_distinct; eauto. Qed.

(** ** Sums over children *)

Lemma below_snoc : forall q k p, prefixb (q ++ [k]) p = true -> prefixb q p = true.
Proof. intros q k p H. apply prefixb_iff in H as [r ->]. apply prefixb_iff. exists (k :: r). now rewrite <- app_assoc. Qed.

Lemma sumZ_zero : forall A (f : A -> Z) l, (forall x, In x l -> f x = 0) -> sumZ (map f l) = 0.
Proof. induction l; intro H; [reflexivity|]. cbn [map]. rewrite sumZ_cons. rewrite H by (left; auto). rewrite IHl; [lia|]. intros. apply H. now right. Qed.

Lemma sumZ_one : forall (f : str -> Z) l k, NoDup l -> In k l -> (forall x, x <> k -> f x = 0) -> sumZ (map f l) = f k.
Proof.
  induction l as [|x l IH]; intros k N I Z; [contradiction|]. cbn [map]. rewrite sumZ_cons. inversion N; subst. destruct I as [->|I].
  - rewrite sumZ_zero; [lia|]. intros y Iy. apply Z. intros ->. contradiction.
  - rewrite Z by (intros ->; contradiction). rewrite (IH k); auto.
Qed.

Lemma split_below : forall q keys ps, NoDup keys ->
  (forall k p, In p ps -> below (q ++ [k]) p = true -> In k keys) ->
  total (filter (below q) ps) =
  total (filter (here q) ps) + sumZ (map (fun k => total (filter (below (q ++ [k])) ps)) keys).
Proof.
  intros q keys ps N. induction ps as [|p ps IH]; intro H.
  - cbn. rewrite sumZ_zero; [reflexivity|]. reflexivity.
  - specialize (IH (fun k x I => H k x (or_intror I))).
    assert (S : forall g, sumZ (map (fun k => total (filter (below (q ++ [k])) (p :: ps))) g) =
                sumZ (map (fun k => if below (q ++ [k]) p then quantity p else 0) g)
                + sumZ (map (fun k => total (filter (below (q ++ [k])) ps)) g)).
    { induction g as [|k g IHg]; [reflexivity|]. cbn [map]. rewrite !sumZ_cons, IHg. cbn [filter].
      destruct (below (q ++ [k]) p); rewrite ?total_cons; lia. }
    rewrite S. cbn [filter].
    destruct (below q p) eqn:B.
    + pose proof B as B'. unfold below in B'. apply prefixb_iff in B' as [r E]. destruct r as [|k r].
      * rewrite app_nil_r in E. unfold here at 1. destruct (list_str_dec q (components p)); [|congruence].
        rewrite !total_cons, IH. rewrite (sumZ_zero _ (fun k => if below (q ++ [k]) p then quantity p else 0)); [lia|].
        intros k _. destruct (below (q ++ [k]) p) eqn:Bk; [|reflexivity]. unfold below in Bk.
        apply prefixb_iff in Bk as [t Bk]. rewrite E in Bk. rewrite <- app_assoc in Bk.
        rewrite <- (app_nil_r q) in Bk at 1. apply app_inv_head in Bk. discriminate.
      * unfold here at 1. destruct (list_str_dec q (components p)) as [X|_].
        { exfalso. rewrite E in X. rewrite <- (app_nil_r q) in X at 1. apply app_inv_head in X. discriminate. }
        assert (Bk : below (q ++ [k]) p = true).
        { unfold below. apply prefixb_iff. exists r. now rewrite <- app_assoc. }
        rewrite total_cons, IH.
        rewrite (sumZ_one (fun k => if below (q ++ [k]) p then quantity p else 0) keys k); auto.
        -- rewrite Bk. lia.
        -- apply (H k p); [left; auto|exact Bk].
        -- intros x Nx. destruct (below (q ++ [x]) p) eqn:Bx; [|reflexivity]. unfold below in Bx.
           apply prefixb_iff in Bx as [t Bx]. rewrite E, <- app_assoc in Bx. apply app_inv_head in Bx. inversion Bx. congruence.
    + rewrite (below_here _ _ B). rewrite IH.
      rewrite (sumZ_zero _ (fun k => if below (q ++ [k]) p then quantity p else 0)); [lia|].
      intros k _. destruct (below (q ++ [k]) p) eqn:Bk; [|reflexivity]. unfold below in *.
      apply below_snoc in Bk. congruence.
Qed.

Lemma wrap64_sum : forall A (f : A -> Z) l, wrap64 (sumZ (map (fun x => wrap64 (f x)) l)) = wrap64 (sumZ (map f l)).
Proof.
  induction l as [|x l IH]; [reflexivity|]. cbn [map]. rewrite !sumZ_cons.
  rewrite <- (wrap64_add_r (wrap64 (f x))), IH, wrap64_add_r, wrap64_add_l. reflexivity.
Qed.

Lemma total_perm : forall a b, Permutation a b -> total a = total b.
Proof. intros a b H. unfold total. apply sumZ_perm. now apply Permutation_map. Qed.

Lemma filter_perm : forall A (f : A -> bool) a b, Permutation a b -> Permutation (filter f a) (filter f b).
Proof.
  intros A f a b H. induction H; cbn; auto.
  - destruct (f x); auto.
  - destruct (f x), (f y); auto. constructor.
  - etransitivity; eauto.
Qed.

(** ** Paths *)

Lemma createPath_join : forall anc name, Forall unreserved anc ->
  createPath_loop name (anc ++ [RootID]) = join [58] (rev anc ++ [name]).
Proof.
  assert (J : forall ws x y, join [58] (ws ++ [x ++ [colon] ++ y]) = join [58] (ws ++ [x; y])).
  { induction ws as [|w ws IH]; intros x y; [reflexivity|].
    change (join [58] (w :: (ws ++ [x ++ [colon] ++ y])) = join [58] (w :: (ws ++ [x; y]))).
    assert (X : forall l z, join [58] (w :: (l ++ [z])) = w ++ [58] ++ join [58] (l ++ [z])).
    { intros l z. destruct (l ++ [z]) eqn:E; [destruct l; discriminate|reflexivity]. }
    rewrite X, IH. replace (ws ++ [x; y]) with ((ws ++ [x]) ++ [y]) by (now rewrite <- app_assoc). now rewrite X. }
  induction anc as [|p anc IH]; intros name F; [reflexivity|]. cbn [app createPath_loop rev].
  inversion F as [|? ? [U1 U2] F']; subst.
  replace (is_root_name p) with false.
  - change (createPath_loop (p ++ colon :: name) (anc ++ [RootID])) with (createPath_loop (p ++ [colon] ++ name) (anc ++ [RootID])).
    rewrite (IH (p ++ [colon] ++ name)) by auto. etransitivity; [exact (J (rev anc) p name)|]. now rewrite <- app_assoc.
  - symmetry. unfold is_root_name. apply orb_false_iff. split; apply str_eqb_neq; assumption.
Qed.

Lemma createPath_components : forall q, q <> [] -> Forall unreserved (removelast q) ->
  createPath (last q []) (rev (removelast q) ++ [RootID]) = join [58] q.
Proof.
  intros q N F. unfold createPath. rewrite createPath_join by (now apply Forall_rev).
  rewrite rev_involutive, <- app_removelast_last by exact N. reflexivity.
Qed.
