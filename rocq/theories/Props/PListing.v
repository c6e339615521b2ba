(** C87: show-jobs and show-daemon. *)
From Coq.Strings Require Import Ascii.
From Verif Require Import Proofs.BaseLemmas Model.Listing.

(** ** The order of names *)
Lemma ascii_compare_trans a b c : (a ?= b)%char <> Gt -> (b ?= c)%char <> Gt -> (a ?= c)%char <> Gt.
Proof. unfold Ascii.compare. rewrite !N.compare_le_iff. apply N.le_trans. Qed.
Lemma ascii_compare_refl a : (a ?= a)%char = Eq.
Proof. unfold Ascii.compare. apply N.compare_refl. Qed.
Lemma leb_spec' a b : String.leb a b = true <-> (a ?= b)%string <> Gt.
Proof. unfold String.leb. destruct (_ ?= _)%string; naive_solver. Qed.
Lemma leb_trans a : forall b c, String.leb a b = true -> String.leb b c = true -> String.leb a c = true.
Proof.
  setoid_rewrite leb_spec'. induction a as [|x a IH]; intros [|y b] [|z c]; try done.
  cbn [String.compare]. intros H1 H2.
  destruct (x ?= y)%char eqn:E1; [..|done].
  - apply Ascii.compare_eq_iff in E1 as ->. destruct (y ?= z)%char eqn:E2; [|done|done]. by eapply IH.
  - destruct (y ?= z)%char eqn:E2; [..|done].
    + apply Ascii.compare_eq_iff in E2 as <-. by rewrite E1.
    + assert (H : (x ?= z)%char <> Gt) by (apply (ascii_compare_trans x y z); congruence).
      destruct (x ?= z)%char eqn:E3; [|done|done].
      apply Ascii.compare_eq_iff in E3 as <-. exfalso.
      rewrite Ascii.compare_antisym, E1 in E2. done.
Qed.
Lemma leb_total' a b : String.leb a b = false -> String.leb b a = true.
Proof. intros H. destruct (String.leb_total a b) as [Ha|]; [congruence|done]. Qed.

(** ** Specification *)
(** A row for every job whose name the expression is found in, with the entry the daemon
    reported, sorted by name; then one for every dead backup it is found in; nothing
    else; and the number shown is the number of rows. *)
Definition faithful (search : string -> string -> bool) (p : string) (entries : list entry)
    (dead : list string) (x : list row * nat) : Prop :=
  exists js, x.1 = map RJob js ++ map RDead (filter (fun d => search p d = true) dead) /\
    js ≡ₚ filter (fun e => search p (e_job e) = true) entries /\
    StronglySorted (fun a b => String.leb (e_job a) (e_job b) = true) js /\
    x.2 = length x.1.

(** ** C87 *)
(** If the set of jobs does not change while the command runs, the listing is
    faithful. *)
Theorem C87_listing_partial : forall search p cwd jobs1 entries dead x,
  (forall n, search "" n = true) ->
  (forall n, n ∈ jobs1 <-> exists e, e ∈ entries /\ e_job e = n) ->
  show_jobs search (Some p) cwd jobs1 entries dead = Ok x ->
  faithful search p entries dead x.
Proof.
  intros search p cwd jobs1 entries dead x He Hj. unfold show_jobs.
  destruct (listed_repos search (Some p) cwd jobs1) as [names|] eqn:En; [|done].
  assert (Hn : forall n, n ∈ names <-> n ∈ jobs1 /\ search p n = true).
  { intros n. cbn [listed_repos] in En. destruct jobs1 as [|j1 r]; [done|].
    destruct (filter _ (j1 :: r)) as [|y l] eqn:Ef; [done|]. injection En as <-.
    rewrite <- Ef, elem_of_list_filter. tauto. }
  clear En. cbn [fetch_entries res_bind].
  assert (Hall : forall A (g : A -> string) (l : list A), p = ""%string ->
            filter (fun e => search p (g e) = true) l = l).
  { intros A g l ->. induction l as [|a l IH]; [done|]. rewrite filter_cons_True by apply He. by rewrite IH. }
  set (sel := if decide (p = "") then entries else _).
  assert (Hsel : sel = filter (fun e => search p (e_job e) = true) entries).
  { unfold sel. destruct (decide (p = "")%string); [|done]. by rewrite (Hall _ e_job). }
  set (bk := if decide (p = "") then dead else _).
  assert (Hbk : bk = filter (fun d => search p d = true) dead).
  { unfold bk. destruct (decide (p = "")%string); [|done]. by rewrite (Hall _ (fun d => d)). }
  set (js := isort (fun a b => String.leb (e_job a) (e_job b)) sel).
  assert (Hfilt : filter (fun e => e_job e ∈ names) js = js).
  { assert (Hin : forall e, e ∈ js -> e_job e ∈ names).
    { intros e Hin. unfold js in Hin. rewrite isort_perm, Hsel in Hin.
      apply elem_of_list_filter in Hin as [H1 H2]. apply Hn. split; [|done]. apply Hj. eauto. }
    clear -Hin. induction js as [|e l IH]; [done|]. rewrite filter_cons_True by (apply Hin; left).
    rewrite IH; [done|]. intros e' He'. apply Hin. by right. }
  intros [= <-]. exists js. rewrite Hfilt. cbn [fst snd]. rewrite Hbk. split; [done|]. split; [|split].
  - unfold js. rewrite isort_perm. by rewrite Hsel.
  - unfold js. apply (isort_sorted (fun a b => String.leb (e_job a) (e_job b))).
    + intros a b. apply leb_total'.
    + intros a b c. apply leb_trans.
  - by rewrite app_length, !map_length.
Qed.
Print Assumptions C87_listing_partial.
(** The command succeeds if some job matches. *)
Theorem C87_lists : forall search p cwd jobs1 entries dead n,
  n ∈ jobs1 -> search p n = true ->
  exists x, show_jobs search (Some p) cwd jobs1 entries dead = Ok x.
Proof.
  intros search p cwd jobs1 entries dead n Hn Hs. unfold show_jobs. cbn [listed_repos].
  assert (Hin : n ∈ filter (fun n => search p n = true) jobs1) by by apply elem_of_list_filter.
  destruct jobs1 as [|a r]; [by apply elem_of_nil in Hn|].
  destruct (filter _ (a :: r)) as [|y l]; [by apply elem_of_nil in Hin|]. cbn. by eexists.
Qed.
Print Assumptions C87_lists.
(** "List status of all known jobs. Optionally filter": without a filter nothing is
    listed, the command always fails. *)
Theorem C87_no_filter_refuted : forall search cwd jobs1 entries dead,
  exists e, show_jobs search None cwd jobs1 entries dead = Err e.
Proof.
  intros. unfold show_jobs. cbn. destruct cwd; cbn; by eexists.
Qed.
Print Assumptions C87_no_filter_refuted.
Definition ex_e (n st : string) : entry :=
  MkEntry n "OK" 0 st None None None None None "" 0 0 0.
(** A reload between the two requests: a new job is counted but not shown. *)
Theorem C87_count_refuted : exists search p jobs1 entries dead rows n,
  show_jobs search (Some p) (Err KeyError) jobs1 entries dead = Ok (rows, n) /\ n <> length rows.
Proof.
  exists (fun _ _ => true), ".*"%string, ["a"]%string, [ex_e "b" ""; ex_e "a" ""]%string, [].
  eexists _, _. split; [vm_compute; reflexivity|]. vm_compute. lia.
Qed.
Print Assumptions C87_count_refuted.

(** *** The summary *)
Definition count (s : string) (l : list string) : nat := length (filter (fun x => x = s) l).
Lemma summary_lookup l s : forall m : gmap string nat,
  fold_left (fun (m : gmap string nat) s => <[s := Datatypes.S (default 0%nat (m !! s))]> m) l m !! s =
  if decide (s ∈ l) then Some (count s l + default 0%nat (m !! s))%nat else m !! s.
Proof.
  induction l as [|x l IH]; intros m; cbn [fold_left].
  - by rewrite decide_False by apply not_elem_of_nil.
  - rewrite IH. destruct (decide (x = s)) as [->|Hne].
    + rewrite lookup_insert. rewrite (decide_True (P := s ∈ s :: l)) by left.
      unfold count. rewrite (filter_cons_True (fun x => x = s)) by done. cbn [length].
      destruct (decide (s ∈ l)) as [Hin|Hin].
      * f_equal. change (default 0%nat (Some ?x)) with x. lia.
      * assert (H0 : filter (fun x => x = s) l = []).
        { clear -Hin. induction l as [|y l IH]; [done|]. apply not_elem_of_cons in Hin as [H1 H2].
          rewrite filter_cons_False by congruence. by apply IH. }
        rewrite H0. cbn [length]. f_equal.
    + rewrite lookup_insert_ne by done. unfold count.
      rewrite (filter_cons_False (fun x => x = s)) by done.
      destruct (decide (s ∈ l)) as [Hin|Hin].
      * by rewrite decide_True by by right.
      * rewrite decide_False; [done|]. rewrite elem_of_cons. naive_solver.
Qed.
(** A row for each status that occurs, with the number of jobs in it ("Dead": of the dead
    repositories too), once each and sorted. *)
Theorem C87_summary : forall statuses dead s n,
  let all := statuses ++ map (fun _ => "Dead"%string) dead in
  ((s, n) ∈ show_daemon statuses dead <-> s ∈ all /\ n = count s all) /\
  NoDup (map fst (show_daemon statuses dead)) /\
  StronglySorted (fun a b => String.leb a b = true) (map fst (show_daemon statuses dead)).
Proof.
  intros statuses dead s n all. unfold show_daemon. fold all.
  assert (Hfst : map fst (map (fun s => (s, default 0%nat (state_summary all !! s)))
      (isort String.leb (map fst (map_to_list (state_summary all)))))
    = isort String.leb (map fst (map_to_list (state_summary all)))).
  { rewrite map_map. cbn [fst]. apply map_id. }
  assert (Hl : forall s, state_summary all !! s = if decide (s ∈ all) then Some (count s all) else None).
  { intros x. unfold state_summary. rewrite summary_lookup, lookup_empty. cbn [default].
    destruct (decide _); [|done]. f_equal. lia. }
  split; [|split].
  - rewrite elem_of_list_fmap. setoid_rewrite isort_elem. setoid_rewrite elem_of_list_fmap. split.
    + intros (x & [= -> ->] & [k b] & -> & Hin). cbn [fst]. apply elem_of_map_to_list in Hin.
      rewrite Hl in Hin |- *. destruct (decide (k ∈ all)); [|done]. by split.
    + intros [Hin ->]. exists s. rewrite Hl, decide_True by done. split; [done|].
      exists (s, count s all). split; [done|]. apply elem_of_map_to_list. rewrite Hl. by rewrite decide_True.
  - rewrite Hfst, isort_perm. apply NoDup_fst_map_to_list.
  - rewrite Hfst. apply (isort_sorted String.leb); [intros a b; apply leb_total'|intros a b c; apply leb_trans].
Qed.
Print Assumptions C87_summary.

Example ex_C87 :
  let search := fun p n => String.prefix p n in
  show_jobs search (Some "vm"%string) (Err KeyError) ["vm2"; "db"; "vm1"]%string
    [ex_e "vm2" "running"; ex_e "db" ""; ex_e "vm1" "waiting"]%string ["vm0"; "old"]%string
  = Ok ([RJob (ex_e "vm1" "waiting"); RJob (ex_e "vm2" "running"); RDead "vm0"]%string, 3%nat) /\
  show_daemon ["waiting"; "running"; "waiting"]%string ["vm0"]%string
  = [("Dead", 1); ("running", 1); ("waiting", 2)]%string%nat.
Proof. split; vm_compute; reflexivity. Qed.
