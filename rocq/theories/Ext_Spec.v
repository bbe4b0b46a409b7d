(** An ext4 file system as a tree. *)
From Coq Require Import Ascii String.
From Verif Require Import PyBase PyDict PyStr Path_Spec FileInfo Ext_Model.
Local Open Scope Z_scope.

Section Spec.
  Variable inodes : Z -> res inode.
  Variable encode : str -> list Z.

  (** The inode at a location, from an inode on: the entry with the encoded name. *)
  Inductive leads : inode -> location -> inode -> Prop :=
  | leads_here n : leads n [] n
  | leads_below n entries name no m loc t :
      i_folder n = Some entries -> In (encode name, no) entries -> inodes no = Ok m -> leads m loc t -> leads n (name :: loc) t.

  (** A sound file system: numbers lead to the inode with that number; names are unique, are not empty and exist. *)
  Definition sound : Prop :=
    forall no n, inodes no = Ok n -> i_no n = no /\
      forall entries, i_folder n = Some entries ->
        NoDup (map fst entries) /\ forall b m, In (b, m) entries -> exists t, inodes m = Ok t.

  (** The module finds what is there, and nothing else. *)
  Definition finds (root : inode) (inode_at : str -> res inode) : Prop :=
    forall loc, Forall proper_name loc ->
      (forall t, leads root loc t -> inode_at (written loc) = Ok t) /\ ((forall t, ~ leads root loc t) -> inode_at (written loc) = Err FileNotFound).

  (** The names that can be shown: those of some text. *)
  Definition encoding_ok (decode : list Z -> res str) : Prop :=
    (forall s b, decode b = Ok s <-> encode s = b) /\ encode $"." = [46] /\ encode $".." = [46; 46].
  Definition readable_names (decode : list Z -> res str) (entries : list (list Z * Z)) : Prop := forall b no, In (b, no) entries -> exists s, decode b = Ok s.
End Spec.
