(** What the shipped translations and formats of humanize should be good for. *)
From Coq Require Import String Ascii List ZArith Bool Permutation.
From Verif Require Import Base PoFileModel PoFileSpec DfmtSpec HumModel.
Import ListNotations.

(** ** Plural requests *)

(** Context, singular and plural of every plural request that humanize makes. *)
Definition time_units : list string := ["year"; "month"; "week"; "day"; "hour"; "minute"]%string.
Definition count_contexts : list string := [""; "naturaltime-past"; "naturaltime-future"]%string.
Definition relative_texts : list (string * string) :=
  [("a second ago", "%[1]v seconds ago"); ("a minute ago", "%[1]v minutes ago"); ("an hour ago", "%[1]v hours ago");
   ("a second from now", "%[1]v seconds from now"); ("a minute from now", "%[1]v minutes from now");
   ("an hour from now", "%[1]v hours from now"); ("%[1]d byte", "%[1]d bytes")]%string.
Definition large_numbers : list string :=
  ["million"; "billion"; "trillion"; "quadrillion"; "quintillion"; "sextillion"; "septillion"; "octillion";
   "nonillion"; "decillion"; "googol"]%string.
Definition plural_requests : list (bytes * bytes * bytes) :=
  flat_map (fun c => map (fun u => (bs c, bs "%[1]v " ++ bs u, bs "%[1]v " ++ bs u ++ bs "s")) time_units) count_contexts ++
  map (fun p => ([], bs (fst p), bs (snd p))) relative_texts ++
  map (fun w => ([], bs "%[1]s " ++ bs w, bs "%[1]s " ++ bs w)) large_numbers.

(** A text under construction contains a plural request. *)
Inductive requests : out -> bytes * bytes * bytes -> Prop :=
| rq_here : forall c s p n a, requests (ONGetf c s p n a) (c, s, p)
| rq_getf : forall c id o r, requests o r -> requests (OGetf c id (AText o)) r
| rq_ngetf : forall c s p n o r, requests o r -> requests (ONGetf c s p n (AText o)) r
| rq_print : forall f o r, requests o r -> requests (OPrint f (AText o)) r
| rq_left : forall x y r, requests x r -> requests (OCat x y) r
| rq_right : forall x y r, requests y r -> requests (OCat x y) r
| rq_elem : forall l sep o r, In o l -> requests o r -> requests (OJoin l sep) r
| rq_sep : forall l sep r, requests sep r -> requests (OJoin l sep) r.

(** A message of a file that humanize asks for with a number, or that has a
    plural text. *)
Definition counted (ms : list message) (ctx id : bytes) : Prop :=
  (exists pl, In (ctx, id, pl) plural_requests) \/ exists m, In m ms /\ key m = (ctx, id) /\ m_pl m <> [].

(** ** Format directives *)

(** The directives of a format: from a percent sign to the next letter or
    percent sign. *)
Definition verb_end (a : ascii) : bool :=
  let n := N_of_ascii a in
  ((65 <=? n) && (n <=? 90) || (97 <=? n) && (n <=? 122) || (n =? 37))%N.
Inductive directives : bytes -> list bytes -> Prop :=
| dv_nil : directives [] []
| dv_other : forall a s ds, a <> "%"%char -> directives s ds -> directives (a :: s) ds
| dv_one : forall d v s ds, forallb (fun a => negb (verb_end a)) d = true -> verb_end v = true ->
    directives s ds -> directives ("%"%char :: d ++ v :: s) (("%"%char :: d ++ [v]) :: ds)
| dv_open : forall d, forallb (fun a => negb (verb_end a)) d = true -> directives ("%"%char :: d) ["%"%char :: d].
(** The text [t] has no directives but those of [s], none more often. *)
Definition uses_directives (s t : bytes) : Prop :=
  exists ds ds' rest, directives s ds /\ directives t ds' /\ Permutation ds (ds' ++ rest).

(** ** Date formats *)

(** The format letters that show a part of a date or time. *)
Inductive part : Type := Year | Month | Day | Hour | Minute.
Definition shows (p : part) : bytes :=
  match p with
  | Year => bs "YycrU"
  | Month => bs "mnMNFEbcrU"
  | Day => bs "djcrU"
  | Hour => bs "GHPcrU"
  | Minute => bs "iPfcrU"
  end.
Definition has_field (ts : list token) (l : bytes) : Prop :=
  exists c, In c l /\ In (Field (Z.of_N (N_of_ascii c))) ts.
(** Twelve hours need to be told from the other twelve. *)
Definition shown (ts : list token) (p : part) : Prop :=
  has_field ts (shows p) \/
  p = Hour /\ has_field ts (bs "ghf") /\ has_field ts (bs "aA").
(** What each of the predefined formats is named for. *)
Definition format_parts : list (string * list part) :=
  [("DATE_FORMAT", [Year; Month; Day]); ("TIME_FORMAT", [Hour; Minute]);
   ("DATETIME_FORMAT", [Year; Month; Day; Hour; Minute]); ("YEAR_MONTH_FORMAT", [Year; Month]);
   ("MONTH_DAY_FORMAT", [Month; Day]); ("SHORT_DATE_FORMAT", [Year; Month; Day]);
   ("SHORT_DATETIME_FORMAT", [Year; Month; Day; Hour; Minute])]%string.
