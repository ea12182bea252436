(** Independent description of notebooks: the table of contents, the paths its names
    stand for, and the sections and section groups found there. Nothing here has
    fuel. *)
From Coq Require Import Permutation Relations.
From Verif Require Import Base Codec PropSet Store Package Shapes Props Nodes Doc
  SpecCodec SpecStore SpecValues SpecNodes SpecDoc Notebook.

(** The elements of a list that satisfy [P], in order. *)
Inductive picks {A} (P : A -> Prop) : list A -> list A -> Prop :=
| pk_nil : picks P [] []
| pk_take a l r : P a -> picks P l r -> picks P (a :: l) (a :: r)
| pk_skip a l r : ~ P a -> picks P l r -> picks P (a :: l) r.

(** ** Table of contents *)
(** The names in the tree under an object, with their ordering ids, in tree order.
    An object with a name stands for that name alone; one without stands for its
    children. *)
Inductive listing (sp : space) : exguid -> list (N * name) -> Prop :=
| ls_name id o d k n :
    get_object sp id = Some o -> toc_object o d ->
    tc_filename d = Some n -> tc_ordering_id d = Some k -> listing sp id [(k, n)]
| ls_folder id o d ls :
    get_object sp id = Some o -> toc_object o d -> tc_filename d = None ->
    Forall2 (listing sp) (tc_children d) ls -> listing sp id (concat ls).
(** One step down the tree. *)
Definition below (sp : space) (a b : exguid) : Prop :=
  exists o d, get_object sp a = Some o /\ toc_object o d /\ tc_filename d = None /\ In b (tc_children d).
Definition no_toc_loop (sp : space) : Prop := forall a, ~ clos_trans _ (below sp) a a.

(** [r] is [l], sorted by ordering id; entries with the same id stay in order. *)
Definition ascending (r : list (N * name)) : Prop :=
  forall i j a b, (i < j)%nat -> nth_error r i = Some a -> nth_error r j = Some b -> fst a <= fst b.
Definition with_id (k : N) (l : list (N * name)) : list (N * name) := filter (fun e => fst e =? k) l.
Definition stably_sorted (l r : list (N * name)) : Prop :=
  Permutation l r /\ ascending r /\ forall k, with_id k l = with_id k r.
(** A name equal to the one just before it is dropped. *)
Inductive squeezed : list name -> list name -> Prop :=
| sq_nil : squeezed [] []
| sq_one n : squeezed [n] [n]
| sq_same n l r : squeezed (n :: l) r -> squeezed (n :: n :: l) r
| sq_other n m l r : n <> m -> squeezed (m :: l) r -> squeezed (n :: m :: l) (n :: r).

Definition toc_is (sp : space) (names : list name) (c : option color) : Prop :=
  exists id ts r,
    content_root sp = Some id /\ listing sp id ts /\ stably_sorted ts r /\ squeezed (map snd r) names /\
    found sp id (fun o => exists d, toc_object o d /\ c = tc_color d).

(** ** Paths *)
Fixpoint join (ws : list name) : list N :=
  match ws with
  | [] => []
  | [w] => w
  | w :: r => w ++ 47 :: join r
  end.
(** The text [e] is [ws] with slashes between. *)
Definition pieces (e : list N) (ws : list name) : Prop :=
  ws <> [] /\ Forall (fun w => ~ In 47 w) ws /\ e = join ws.
Definition not_dot (w : name) : Prop := w <> [] /\ w <> [46].
Definition below_path (p base : path) : Prop := exists rest, p = base ++ rest.
(** [p] does not exist, or it is really inside [base], links followed. *)
Definition contained (fs : filesystem) (base p : path) : Prop :=
  fs_exists fs p = true ->
  exists cb cp, fs_canonicalize fs base = Some cb /\ fs_canonicalize fs p = Some cp /\ below_path cp cb.
(** What a relative name may look like, and the path it stands for. *)
Definition resolves (sanitise : name -> name) (fs : filesystem) (base : path) (e : name) (p : path) : Prop :=
  exists ws ns,
    pieces e ws /\ hd_error e <> Some 47 /\ picks not_dot ws ns /\ ns <> [] /\
    Forall (fun n => n <> [46; 46] /\ sanitise n = n) ns /\
    p = base ++ map Normal ns /\ contained fs base p.

(** ** Notebooks *)
Definition ends_in (p base : path) (c : component) : Prop := p = base ++ [c].
Definition recycled (p : path) : Prop :=
  exists base, ends_in p base
    (Normal [79; 110; 101; 78; 111; 116; 101; 95; 82; 101; 99; 121; 99; 108; 101; 66; 105; 110]).
(** A file name with the extension ".onetoc2". *)
Definition toc_name (n : name) : Prop :=
  exists stem, stem <> [] /\ n = stem ++ [46; 111; 110; 101; 116; 111; 99; 50].
(** The first such name in a directory. *)
Definition first_toc (files : list (option name)) (n : name) : Prop :=
  exists before after, files = map Some before ++ Some n :: after /\ toc_name n /\
    Forall (fun m => ~ toc_name m) before.

Definition opens (h : order) (bs : list N) (st : store) : Prop := exists fuel, open_store h fuel bs = Ok st.
Definition section_at (h : order) (fs : filesystem) (p : path) (s : section) : Prop :=
  exists bs st base n,
    fs_read fs p = Some bs /\ opens h bs st /\
    st_schema st = 0x1F937CB4B26F445FB9F817E20160E461 /\
    ends_in p base (Normal n) /\ section_is st n s.

Section Notebook.
  Variables (sanitise : name -> name) (h : order) (fs : filesystem).
  Inductive entry_at : path -> section_entry -> Prop :=
  | ea_section p s : fs_is_file fs p = true -> section_at h fs p s -> entry_at p (EnSection s)
  | ea_group p base n files toc es c :
      fs_is_file fs p = false -> ends_in p base (Normal n) ->
      fs_read_dir fs p = Some files -> first_toc files toc ->
      notebook_at (p ++ [Normal toc]) es c -> entry_at p (EnGroup n es)
  with notebook_at : path -> list section_entry -> option color -> Prop :=
  | na p bs st base last names ps shown es c :
      fs_read fs p = Some bs -> opens h bs st ->
      st_schema st = 0xE4DBFD38E5C7408BA8A10E7B421E1F5F ->
      ends_in p base last -> last <> RootDir ->
      toc_is (st_data_root st) names c ->
      Forall2 (resolves sanitise fs base) names ps ->
      picks (fun q => fs_exists fs q = true /\ ~ recycled q) ps shown ->
      Forall2 entry_at shown es -> notebook_at p es c.
End Notebook.

(** ** File systems *)
(** Every file can be read to the end with this fuel (C18 and C31 say when). *)
Definition readable (h : order) (fuel : nat) (fs : filesystem) : Prop :=
  forall p bs, fs_read fs p = Some bs -> open_store h fuel bs <> OutOfFuel /\
    forall st, open_store h fuel bs = Ok st ->
      parse_toc fuel (st_data_root st) <> OutOfFuel /\ forall n, parse_section fuel st n <> OutOfFuel.
(** No path below [base] with more than [n] further names exists. *)
Definition shallow (fs : filesystem) (base : path) (n : nat) : Prop :=
  forall ns, fs_exists fs (base ++ map Normal ns) = true -> (length ns <= n)%nat.

(** A directory tree without links. [walk above t p] follows [p] from the directory
    [t], whose enclosing directories are [above]. *)
Inductive tree := File | Directory (entries : list (name * tree)).
Definition child (t : tree) (n : name) : option tree :=
  match t with
  | File => None
  | Directory es => option_map snd (find (fun e => name_eqb n (fst e)) es)
  end.
Fixpoint walk (above : list tree) (t : tree) (p : path) : option tree :=
  match p with
  | [] => Some t
  | RootDir :: r => walk [] (last above t) r
  | CurDir :: r => walk above t r
  | ParentDir :: r => match above with [] => walk [] t r | u :: a => walk a u r end
  | Normal n :: r => match child t n with Some c => walk (t :: above) c r | None => None end
  end.
Definition without_links (fs : filesystem) (above : list tree) (cwd : tree) : Prop :=
  forall p, fs_exists fs p = true -> walk above cwd p <> None.

(** The two file systems answer alike about [base] and the paths below it by name;
    they hold the same bytes in the files really inside [base], links followed, and
    under every name with the extension ".onetoc2". *)
Definition alike_inside (base : path) (fs fs' : filesystem) : Prop :=
  (forall ns, let p := base ++ map Normal ns in
     fs_exists fs p = fs_exists fs' p /\ fs_is_file fs p = fs_is_file fs' p /\
     fs_canonicalize fs p = fs_canonicalize fs' p /\ fs_read_dir fs p = fs_read_dir fs' p) /\
  (forall ns cb cp, fs_canonicalize fs base = Some cb ->
     fs_canonicalize fs (base ++ map Normal ns) = Some cp -> below_path cp cb ->
     fs_read fs (base ++ map Normal ns) = fs_read fs' (base ++ map Normal ns)) /\
  (forall ns n, toc_name n ->
     fs_read fs (base ++ map Normal ns ++ [Normal n]) = fs_read fs' (base ++ map Normal ns ++ [Normal n])).
