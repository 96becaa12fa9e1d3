(** Running the checks of HumLocProofs over everything that is shipped. *)
From Coq Require Import String Ascii List ZArith Bool.
From Verif Require Import Base Utf8Model PopModel PopBuiltin PoStrModel PoFileModel GettextProofs DfmtModel HumLocModel HumLocSpec HumLocProofs
  HumData1 HumData2 HumData3 HumData4 HumData5 HumData6 HumData7 HumData8 HumData9 HumData10.
Import ListNotations.
Open Scope Z_scope.

(** All locale packages, with the names of their directories. *)
Definition shipped : list (bytes * locale_data) :=
  shipped_1 ++ shipped_2 ++ shipped_3 ++ shipped_4 ++ shipped_5 ++
  shipped_6 ++ shipped_7 ++ shipped_8 ++ shipped_9 ++ shipped_10.

(** What is not in order: keys of messages, by directory. *)
Definition hebrew_gaps : list (bytes * bytes) :=
  map (fun s => ([], bs s)) ["%[1]d byte"; "%[1]v day"; "%[1]v hour"; "%[1]v minute"; "%[1]v month"; "%[1]v week"; "%[1]v year"]%string.
Definition gaps_of (dir : bytes) : list (bytes * bytes) := if beq dir (bs "he") then hebrew_gaps else [].
Definition wrong_of (dir : bytes) : list (bytes * bytes) :=
  if beq dir (bs "be") then [([], bs "%[1]s billion")] else [].

Definition numberless_of (dir : bytes) : list (bytes * bytes) :=
  if beq dir (bs "he") then map (fun s => ([], bs s))
    ["%[1]s billion"; "%[1]s decillion"; "%[1]s googol"; "%[1]s million"; "%[1]s nonillion"; "%[1]s octillion";
     "%[1]s quadrillion"; "%[1]s quintillion"; "%[1]s septillion"; "%[1]s sextillion"; "%[1]s trillion"]%string
  else wrong_of dir.

Definition examined (p : bytes * locale_data) : option (list (bytes * bytes) * list (bytes * bytes) * list (bytes * bytes)) :=
  match ld_fs (snd p) with
  | [(name, po)] => if beq name (bs "django.po") then examine po else None
  | _ => None
  end.
Definition expected (p : bytes * locale_data) : option (list (bytes * bytes) * list (bytes * bytes) * list (bytes * bytes)) :=
  Some (gaps_of (fst p), wrong_of (fst p), numberless_of (fst p)).

Lemma checked_1 : map examined shipped_1 = map expected shipped_1.
Proof. vm_cast_no_check (eq_refl (map expected shipped_1)). Qed.
Lemma checked_2 : map examined shipped_2 = map expected shipped_2.
Proof. vm_cast_no_check (eq_refl (map expected shipped_2)). Qed.
Lemma checked_3 : map examined shipped_3 = map expected shipped_3.
Proof. vm_cast_no_check (eq_refl (map expected shipped_3)). Qed.
Lemma checked_4 : map examined shipped_4 = map expected shipped_4.
Proof. vm_cast_no_check (eq_refl (map expected shipped_4)). Qed.
Lemma checked_5 : map examined shipped_5 = map expected shipped_5.
Proof. vm_cast_no_check (eq_refl (map expected shipped_5)). Qed.
Lemma checked_6 : map examined shipped_6 = map expected shipped_6.
Proof. vm_cast_no_check (eq_refl (map expected shipped_6)). Qed.
Lemma checked_7 : map examined shipped_7 = map expected shipped_7.
Proof. vm_cast_no_check (eq_refl (map expected shipped_7)). Qed.
Lemma checked_8 : map examined shipped_8 = map expected shipped_8.
Proof. vm_cast_no_check (eq_refl (map expected shipped_8)). Qed.
Lemma checked_9 : map examined shipped_9 = map expected shipped_9.
Proof. vm_cast_no_check (eq_refl (map expected shipped_9)). Qed.
Lemma checked_10 : map examined shipped_10 = map expected shipped_10.
Proof. vm_cast_no_check (eq_refl (map expected shipped_10)). Qed.

(** The format data of a package as New fills it in, and what is not shown. *)
Definition filled (d : locale_data) : format_data :=
  set_defaults (match ld_format d with Some f => f | None => fallback end).
Definition hidden (d : locale_data) : list (bytes * part) :=
  flat_map (fun k => map (pair (bs (fst k))) (filter (fun p => negb (shownb (select_format (filled d) (bs (fst k))) p)) (snd k))) format_parts.
Lemma formats_checked : map (fun p => (fst p, hidden (snd p))) shipped =
  map (fun p => (fst p, if beq (fst p) (bs "vi") then [(bs "DATETIME_FORMAT", Hour)] else [])) shipped.
Proof. vm_cast_no_check (eq_refl (map (fun p => (fst p, hidden (snd p))) shipped)). Qed.

(** The Hebrew file: the rule in its header and the forms of the seven messages. *)
Lemma hebrew_probe : probe po_he hebrew_gaps = Some ([], hebrew_rule, true, map (fun _ => ([0; 1; 2], false, false)) hebrew_gaps).
Proof. vm_cast_no_check (eq_refl (probe po_he hebrew_gaps)). Qed.

(** The Belarusian file: the first form of the text for billions. *)
Lemma belarusian_probe : look po_be [] (bs "%[1]s billion") (fun m => (m_pl m, form m 0)) =
  Some (bs "%[1]s billion", bs "%(value).s мільярд").
Proof. vm_cast_no_check (eq_refl (Some (bs "%[1]s billion", bs "%(value).s мільярд"))). Qed.

(** The Hebrew text for one million. *)
Lemma hebrew_million : look po_he [] (bs "%[1]s million") (fun m => form m 0) = Some (bs "מיליון").
Proof. vm_cast_no_check (eq_refl (Some (bs "מיליון"))). Qed.
