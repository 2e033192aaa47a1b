(** * Tags: pyown/tags/base.py, where.py, who.py *)
From Coq Require Import String List NArith ZArith Bool Lia.
From Verif Require Import PyStr.
Import ListNotations.
Open Scope N_scope.
Open Scope list_scope.

(** tags/base.py:13 VALID_TAG_CHARS *)
Definition VALID_TAG_CHARS : str := lit "0123456789#".

(** [c in VALID_TAG_CHARS] for a single character c. *)
Definition is_tagc (c : N) : bool := existsb (N.eqb c) VALID_TAG_CHARS.

(** tags/base.py:17-28 is_valid_tag *)
Definition is_valid_tag (t : str) : bool := forallb is_tagc t.

(** The argument types the annotations allow for a tag, plus bool, which is an
    int for [isinstance]. *)
Inductive pyarg :=
| AStr (s : str)
| AInt (z : Z)
| ABool (b : bool).

(** [str(x)] for those arguments (also what [f"{x}"] gives). *)
Definition py_str (a : pyarg) : res str :=
  match a with
  | AStr s => Ok s
  | AInt z => py_str_int z
  | ABool true => Ok (lit "True")
  | ABool false => Ok (lit "False")
  end.

(** tags/base.py:39-47 Tag.__init__.  A tag object is represented by its
    string: all observable behaviour of the plain tag classes (string, tag,
    parameters, str(), ==, hash) is a function of it and of the class. *)
Definition tag_make (a : pyarg) : res str :=
  do s <- py_str a;
  if is_valid_tag s then Ok s else Err InvalidTag.

(** tags/base.py:55-58 Tag.tag (used by Value) *)
Definition tag_tag (s : str) : str := removeprefix [c_hash] s.

(** tags/base.py:61-66 Tag.parameters is None. *)
Definition tag_parameters (s : str) : option (list str) := None.

(** tags/base.py:100-103 TagWithParameters.tag: [split("#")[0]], never out of
    range because split returns a non-empty list. *)
Definition twp_tag (s : str) : str :=
  match split c_hash s with x :: _ => x | [] => [] end.

(** tags/base.py:106-108 TagWithParameters.parameters: [split("#")[1:]] *)
Definition twp_parameters (s : str) : list str := tl (split c_hash s).

(** tags/base.py:68-70 Tag.with_parameter and 110-112
    TagWithParameters.with_parameter: both build "self#parameter" and validate
    it; they differ only in the class of the result.  The enum subclasses,
    where the constructor is an enum lookup, are modelled with the items. *)
Definition with_parameter (s : str) (p : pyarg) : res str :=
  do t <- py_str p;
  tag_make (AStr (s ++ [c_hash] ++ t)).

(** ** Equality and hashing *)

(** Values that can be compared with a tag. *)
Inductive pyval :=
| PTag (s : str)
| PStr (s : str)
| PInt (z : Z).

(** tags/base.py:78-86 Tag.__eq__, with Python's fallback to the reflected
    method when the left operand's type returns NotImplemented. *)
Definition py_eq (a b : pyval) : res bool :=
  match a, b with
  | PTag x, PTag y => Ok (str_eqb x y)
  | PTag x, PStr y => Ok (str_eqb x y)
  | PTag x, PInt z => do s <- py_str_int z; Ok (str_eqb x s)
  | PStr x, PTag y => Ok (str_eqb y x)        (* reflected Tag.__eq__ *)
  | PStr x, PStr y => Ok (str_eqb x y)
  | PStr _, PInt _ => Ok false
  | PInt z, PTag y => do s <- py_str_int z; Ok (str_eqb y s)   (* reflected *)
  | PInt _, PStr _ => Ok false
  | PInt z, PInt w => Ok (z =? w)%Z
  end.

(** tags/base.py:88-89 Tag.__hash__; [hs] is [str.__hash__] (randomised per
    process) and [hi] is [int.__hash__]. *)
Definition py_hash (hs : str -> Z) (hi : Z -> Z) (a : pyval) : Z :=
  match a with
  | PTag s => hs s
  | PStr s => hs s
  | PInt z => hi z
  end.

(** ** WHERE *)

Inductive wtype := GENERAL | AMBIENT | LIGHT_POINT | GROUP | LOCAL_BUS.

(** [s.startswith((p1, ..., pn))] *)
Definition startswith_any (ps : list str) (s : str) : bool := existsb (fun p => startswith p s) ps.

(** tags/where.py:35-59 Where.type *)
Definition where_type (s : str) : res wtype :=
  if str_eqb s (lit "0") then Ok GENERAL
  else if str_in s (map lit ["1"; "2"; "3"; "4"; "5"; "6"; "7"; "8"; "9"]%string) then Ok AMBIENT
  else if str_in s (map lit ["00"; "100"]%string) then Ok AMBIENT
  else if startswith_any (map lit ["00"; "10"]%string) s then Ok LIGHT_POINT
  else if startswith_any (map lit ["1"; "2"; "3"; "4"; "5"; "6"; "7"; "8"; "9"]%string) s then Ok LIGHT_POINT
  else if startswith_any (map lit ["01"; "02"; "03"; "04"; "05"; "06"; "07"; "08"; "09"]%string) s then Ok LIGHT_POINT
  else if str_eqb (twp_tag s) [] && (List.length (twp_parameters s) =? 1)%nat then Ok GROUP
  else if str_eqb (twp_tag s) [] && (List.length (twp_parameters s) =? 2)%nat then Ok LOCAL_BUS
  else Err ValueError.

(** ** WHO *)

(** tags/who.py:45-66 *)
Inductive who :=
| SCENE | LIGHTING | AUTOMATION | LOAD_CONTROL | THERMOREGULATION | BURGLAR_ALARM
| DOOR_ENTRY_SYSTEM | VIDEO_DOOR_ENTRY | AUXILIARY | GATEWAY | ACTUATORS_LOCKS | CEN_1
| SOUND_DIFFUSION_1 | MH200N_SCENE | ENERGY_MANAGEMENT | SOUND_DIFFUSION_2
| LIGHTING_MANAGEMENT | CEN_2 | AUTOMATION_DIAGNOSTICS | THERMOREGULATION_DIAGNOSTICS
| DEVICE_DIAGNOSTICS | ENERGY_DIAGNOSTICS.

(** The value (and string, via Tag.__init__) of each member. *)
Definition who_str (w : who) : str :=
  lit match w with
  | SCENE => "0"
  | LIGHTING => "1"
  | AUTOMATION => "2"
  | LOAD_CONTROL => "3"
  | THERMOREGULATION => "4"
  | BURGLAR_ALARM => "5"
  | DOOR_ENTRY_SYSTEM => "6"
  | VIDEO_DOOR_ENTRY => "7"
  | AUXILIARY => "8"
  | GATEWAY => "13"
  | ACTUATORS_LOCKS => "14"
  | CEN_1 => "15"
  | SOUND_DIFFUSION_1 => "16"
  | MH200N_SCENE => "17"
  | ENERGY_MANAGEMENT => "18"
  | SOUND_DIFFUSION_2 => "22"
  | LIGHTING_MANAGEMENT => "24"
  | CEN_2 => "25"
  | AUTOMATION_DIAGNOSTICS => "1001"
  | THERMOREGULATION_DIAGNOSTICS => "1004"
  | DEVICE_DIAGNOSTICS => "1013"
  | ENERGY_DIAGNOSTICS => "1018"
  end%string.

Definition all_who : list who :=
  [SCENE; LIGHTING; AUTOMATION; LOAD_CONTROL; THERMOREGULATION; BURGLAR_ALARM;
   DOOR_ENTRY_SYSTEM; VIDEO_DOOR_ENTRY; AUXILIARY; GATEWAY; ACTUATORS_LOCKS; CEN_1;
   SOUND_DIFFUSION_1; MH200N_SCENE; ENERGY_MANAGEMENT; SOUND_DIFFUSION_2;
   LIGHTING_MANAGEMENT; CEN_2; AUTOMATION_DIAGNOSTICS; THERMOREGULATION_DIAGNOSTICS;
   DEVICE_DIAGNOSTICS; ENERGY_DIAGNOSTICS].

(** [Who(s)]: enum lookup by value, ValueError when absent. *)
Definition who_of (s : str) : res who :=
  match find (fun w => str_eqb (who_str w) s) all_who with
  | Some w => Ok w
  | None => Err ValueError
  end.

(** tags/who.py:77-95 who_map *)
Definition who_map : list (who * str) :=
  map (fun p => (fst p, lit (snd p)))
  [ (SCENE, "Scene"); (LIGHTING, "Lighting"); (AUTOMATION, "Automation");
    (LOAD_CONTROL, "Load control"); (THERMOREGULATION, "Thermoregulation");
    (BURGLAR_ALARM, "Burglar alarm"); (VIDEO_DOOR_ENTRY, "Video door entry");
    (GATEWAY, "Gateway management"); (CEN_1, "CEN"); (SOUND_DIFFUSION_1, "Sound diffusion 1");
    (MH200N_SCENE, "MH200N Scene"); (ENERGY_MANAGEMENT, "Energy management");
    (SOUND_DIFFUSION_2, "Sound diffusion 2");
    (CEN_2, "CEN plus / scenarios plus / dry contacts");
    (AUTOMATION_DIAGNOSTICS, "Automation diagnostics");
    (THERMOREGULATION_DIAGNOSTICS, "Thermoregulation diagnostics");
    (DEVICE_DIAGNOSTICS, "Device diagnostics") ]%string.

Definition who_eqb (a b : who) : bool := str_eqb (who_str a) (who_str b).

(** tags/who.py:72-74 Who.name: dictionary lookup, KeyError when absent. *)
Definition who_name (w : who) : res str :=
  match find (fun p => who_eqb (fst p) w) who_map with
  | Some p => Ok (snd p)
  | None => Err KeyError
  end.

(** ** Facts *)

Lemma is_tagc_spec c : is_tagc c = true <-> (48 <= c <= 57 \/ c = c_hash).
Proof.
  unfold is_tagc. rewrite existsb_exists. split.
  - intros (d & Hd & E). apply N.eqb_eq in E as <-. cbn in Hd. unfold c_hash.
    repeat (destruct Hd as [<-|Hd]; [lia|]). destruct Hd.
  - intros H. exists c. split; [|apply N.eqb_refl]. cbn. unfold c_hash in H.
    assert (c = 48 \/ c = 49 \/ c = 50 \/ c = 51 \/ c = 52 \/ c = 53 \/ c = 54 \/ c = 55 \/ c = 56 \/ c = 57 \/ c = 35) by lia.
    intuition auto.
Qed.

Lemma is_tagc_cases c : is_tagc c = is_digit c || (c =? c_hash).
Proof.
  apply eq_true_iff_eq. rewrite is_tagc_spec, orb_true_iff, is_digit_range, N.eqb_eq. tauto.
Qed.

Lemma is_digit_tagc c : is_digit c = true -> is_tagc c = true.
Proof. rewrite is_tagc_cases. now intros ->. Qed.

Lemma is_tagc_not_star c : is_tagc c = true -> c <> c_star.
Proof. rewrite is_tagc_spec. unfold c_hash, c_star. lia. Qed.

Lemma is_tagc_not_space c : is_tagc c = true -> is_space c = false.
Proof.
  rewrite is_tagc_spec. unfold is_space, c_hash. intros H.
  rewrite !orb_false_iff, !andb_false_iff, !N.leb_gt, !N.eqb_neq. lia.
Qed.

Lemma is_tagc_ascii c : is_tagc c = true -> c < 128.
Proof. rewrite is_tagc_spec. unfold c_hash. lia. Qed.

Lemma valid_nostar t : is_valid_tag t = true -> ~ In c_star t.
Proof.
  unfold is_valid_tag. rewrite forallb_forall. intros H Hin. apply H in Hin.
  now apply is_tagc_not_star in Hin.
Qed.

Lemma valid_app s t : is_valid_tag (s ++ t) = is_valid_tag s && is_valid_tag t.
Proof. apply forallb_app. Qed.

Lemma all_digits_valid s : all_digits s = true -> is_valid_tag s = true.
Proof.
  unfold all_digits, is_valid_tag. rewrite !forallb_forall. intros H x Hx.
  apply is_digit_tagc. auto.
Qed.

Lemma dec_valid n : is_valid_tag (dec n) = true.
Proof. apply all_digits_valid, dec_digits. Qed.

Lemma digits_nohash s : all_digits s = true -> ~ In c_hash s.
Proof.
  unfold all_digits. rewrite forallb_forall. intros H Hin. apply H in Hin.
  apply is_digit_range in Hin. unfold c_hash in Hin. lia.
Qed.

Lemma valid_nohash_digits s : is_valid_tag s = true -> ~ In c_hash s -> all_digits s = true.
Proof.
  unfold is_valid_tag, all_digits. rewrite !forallb_forall. intros H Hn x Hx.
  specialize (H x Hx). rewrite is_tagc_cases in H. apply orb_true_iff in H as [H|H]; auto.
  apply N.eqb_eq in H as ->. contradiction.
Qed.

Lemma twp_split s : split c_hash s = twp_tag s :: twp_parameters s.
Proof.
  unfold twp_tag, twp_parameters. pose proof (split_not_nil c_hash s).
  destruct (split c_hash s); [congruence|reflexivity].
Qed.

Lemma join_concat sep x l : join sep (x :: l) = x ++ concat (map (cons sep) l).
Proof.
  revert x; induction l as [|y l IH]; intros x.
  - cbn. now rewrite app_nil_r.
  - rewrite join_cons by discriminate. rewrite IH. cbn. reflexivity.
Qed.

Lemma twp_recompose s : s = twp_tag s ++ concat (map (cons c_hash) (twp_parameters s)).
Proof. rewrite <- join_concat, <- twp_split. symmetry. apply join_split. Qed.

Lemma twp_nohash s :
  ~ In c_hash (twp_tag s) /\ Forall (fun p => ~ In c_hash p) (twp_parameters s).
Proof.
  pose proof (split_no_sep_in c_hash s) as H. rewrite twp_split in H.
  inversion H; subst. auto.
Qed.

Lemma split_app_end sep s t :
  ~ In sep t -> split sep (s ++ sep :: t) = split sep s ++ [t].
Proof.
  intros Ht. induction s as [|c s IH]; cbn [app split].
  - rewrite N.eqb_refl. rewrite (split_nosep sep t Ht). reflexivity.
  - destruct (c =? sep); rewrite IH; [reflexivity|].
    pose proof (split_not_nil sep s). destruct (split sep s); [congruence|reflexivity].
Qed.

Lemma twp_with s p :
  ~ In c_hash p ->
  twp_tag (s ++ c_hash :: p) = twp_tag s /\
  twp_parameters (s ++ c_hash :: p) = twp_parameters s ++ [p].
Proof.
  intros Hp. pose proof (split_app_end c_hash s p Hp) as H.
  rewrite !twp_split in H. cbn [app] in H. injection H as H1 H2. auto.
Qed.

Lemma who_of_str w : who_of (who_str w) = Ok w.
Proof. destruct w; reflexivity. Qed.

Lemma who_of_ok s w : who_of s = Ok w <-> s = who_str w.
Proof.
  split.
  - unfold who_of. destruct (find _ all_who) as [v|] eqn:E; [|discriminate].
    intros H. injection H as ->. apply find_some in E as [_ E]. apply str_eqb_spec in E. congruence.
  - intros ->. apply who_of_str.
Qed.

Lemma who_of_err s e : who_of s = Err e -> e = ValueError /\ forall w, s <> who_str w.
Proof.
  intros H. split.
  - unfold who_of in H. destruct (find _ all_who); congruence.
  - intros w ->. rewrite who_of_str in H. discriminate.
Qed.

Lemma who_str_digits w : all_digits (who_str w) = true.
Proof. destruct w; reflexivity. Qed.

Lemma who_str_not_nil w : who_str w <> [].
Proof. destruct w; discriminate. Qed.

Lemma who_str_inj a b : who_str a = who_str b -> a = b.
Proof.
  intros H. pose proof (who_of_str a) as Ha. rewrite H, who_of_str in Ha. now injection Ha.
Qed.

Lemma who_eqb_spec a b : who_eqb a b = true <-> a = b.
Proof.
  unfold who_eqb. rewrite str_eqb_spec. split; [apply who_str_inj|congruence].
Qed.
