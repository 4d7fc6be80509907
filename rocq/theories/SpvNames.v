(** The attributes of a metadata item that the Spotlight script shows, in this order: the name that is shown and the name with which the
    attribute is stored. *)

From Verif Require Import Base.
From Coq Require String.
Import String.StringSyntax.

Definition shown_attributes : list (str * str) := map (fun p => (s2z (fst p), s2z (snd p))) [
  ("_kMDItemDisplayNameWithExtensions", "_kMDItemDisplayNameWithExtensions");
  ("kMDItemContentCreationDate", "kMDItemContentCreationDate");
  ("kMDItemContentCreationDate_Ranking", "kMDItemContentCreationDate_Ranking");
  ("kMDItemContentModificationDate", "kMDItemContentModificationDate");
  ("kMDItemContentModificationDate_Ranking", "kMDItemContentModificationDate_Ranking");
  ("kMDItemContentType", "kMDItemContentType");
  ("kMDItemContentTypeTree", "kMDItemContentTypeTree");
  ("kMDItemDateAdded", "kMDItemDateAdded");
  ("kMDItemDateAdded_Ranking", "kMDItemDateAdded_Ranking");
  ("kMDItemDisplayName", "kMDItemDisplayName");
  ("kMDItemDocumentIdentifier", "kMDItemDocumentIdentifier");
  ("kMDItemFSContentChangeDate", "_kMDItemContentChangeDate");
  ("kMDItemFSCreationDate", "_kMDItemCreationDate");
  ("kMDItemFSCreatorCode", "_kMDItemCreatorCode");
  ("kMDItemFSFinderFlags", "_kMDItemFinderFlags");
  ("kMDItemFSHasCustomIcon", "kMDItemFSHasCustomIcon");
  ("kMDItemFSInvisible", "kMDItemFSInvisible");
  ("kMDItemFSIsExtensionHidden", "_kMDItemIsExtensionHidden");
  ("kMDItemFSIsStationery", "kMDItemFSIsStationery");
  ("kMDItemFSLabel", "_kMDItemFinderLabel");
  ("kMDItemFSName", "_kMDItemFileName");
  ("kMDItemFSNodeCount", "_kMDItemNodeCount");
  ("kMDItemFSOwnerGroupID", "_kMDItemOwnerGroupID");
  ("kMDItemFSOwnerUserID", "_kMDItemOwnerUserID");
  ("kMDItemFSSize", "kMDItemFSSize");
  ("kMDItemFSTypeCode", "kMDItemFSTypeCode");
  ("kMDItemInterestingDate_Ranking", "kMDItemInterestingDate_Ranking");
  ("kMDItemKind", "kMDItemKind");
  ("kMDItemLogicalSize", "kMDItemLogicalSize");
  ("kMDItemPhysicalSize", "kMDItemPhysicalSize")]%string.
