(** * Setters: assignments to single fields.

    [set_f v r] is the record [r] with the value [v] in its field [f]; one definition for
    every field of the records of ClcModel.v, LlcModel.v and RoceModel.v that a Parse method
    assigns to.  These are the left-hand sides of the assignments in WriteModel.v. *)

From Coq Require Import NArith List.
From Verif Require Import GoBase ClcModel LlcModel RoceModel.

(** [Header] *)
Definition set_h_Eyecatcher (v : list byte) (r : Header) : Header :=
  mkHeader v (h_Type r) (h_Length r) (h_Version r) (h_Flag r) (h_reserved r) (h_Pathv2 r)
    (h_Path r).
Definition set_h_Type (v : N) (r : Header) : Header :=
  mkHeader (h_Eyecatcher r) v (h_Length r) (h_Version r) (h_Flag r) (h_reserved r) (h_Pathv2 r)
    (h_Path r).
Definition set_h_Length (v : N) (r : Header) : Header :=
  mkHeader (h_Eyecatcher r) (h_Type r) v (h_Version r) (h_Flag r) (h_reserved r) (h_Pathv2 r)
    (h_Path r).
Definition set_h_Version (v : N) (r : Header) : Header :=
  mkHeader (h_Eyecatcher r) (h_Type r) (h_Length r) v (h_Flag r) (h_reserved r) (h_Pathv2 r)
    (h_Path r).
Definition set_h_Flag (v : N) (r : Header) : Header :=
  mkHeader (h_Eyecatcher r) (h_Type r) (h_Length r) (h_Version r) v (h_reserved r) (h_Pathv2 r)
    (h_Path r).
Definition set_h_reserved (v : N) (r : Header) : Header :=
  mkHeader (h_Eyecatcher r) (h_Type r) (h_Length r) (h_Version r) (h_Flag r) v (h_Pathv2 r)
    (h_Path r).
Definition set_h_Pathv2 (v : N) (r : Header) : Header :=
  mkHeader (h_Eyecatcher r) (h_Type r) (h_Length r) (h_Version r) (h_Flag r) (h_reserved r) v
    (h_Path r).
Definition set_h_Path (v : N) (r : Header) : Header :=
  mkHeader (h_Eyecatcher r) (h_Type r) (h_Length r) (h_Version r) (h_Flag r) (h_reserved r)
    (h_Pathv2 r) v.

(** [AcceptSMCD] *)
Definition set_ad_Raw (v : slice) (r : AcceptSMCD) : AcceptSMCD :=
  mkAcceptSMCD v (ad_Header r) (ad_GID r) (ad_Token r) (ad_DMBEIdx r) (ad_DMBESize r)
    (ad_reserved r) (ad_reserved2 r) (ad_LinkID r) (ad_reserved3 r) (ad_Trailer r).
Definition set_ad_Header (v : Header) (r : AcceptSMCD) : AcceptSMCD :=
  mkAcceptSMCD (ad_Raw r) v (ad_GID r) (ad_Token r) (ad_DMBEIdx r) (ad_DMBESize r)
    (ad_reserved r) (ad_reserved2 r) (ad_LinkID r) (ad_reserved3 r) (ad_Trailer r).
Definition set_ad_GID (v : N) (r : AcceptSMCD) : AcceptSMCD :=
  mkAcceptSMCD (ad_Raw r) (ad_Header r) v (ad_Token r) (ad_DMBEIdx r) (ad_DMBESize r)
    (ad_reserved r) (ad_reserved2 r) (ad_LinkID r) (ad_reserved3 r) (ad_Trailer r).
Definition set_ad_Token (v : N) (r : AcceptSMCD) : AcceptSMCD :=
  mkAcceptSMCD (ad_Raw r) (ad_Header r) (ad_GID r) v (ad_DMBEIdx r) (ad_DMBESize r)
    (ad_reserved r) (ad_reserved2 r) (ad_LinkID r) (ad_reserved3 r) (ad_Trailer r).
Definition set_ad_DMBEIdx (v : N) (r : AcceptSMCD) : AcceptSMCD :=
  mkAcceptSMCD (ad_Raw r) (ad_Header r) (ad_GID r) (ad_Token r) v (ad_DMBESize r) (ad_reserved r)
    (ad_reserved2 r) (ad_LinkID r) (ad_reserved3 r) (ad_Trailer r).
Definition set_ad_DMBESize (v : N) (r : AcceptSMCD) : AcceptSMCD :=
  mkAcceptSMCD (ad_Raw r) (ad_Header r) (ad_GID r) (ad_Token r) (ad_DMBEIdx r) v (ad_reserved r)
    (ad_reserved2 r) (ad_LinkID r) (ad_reserved3 r) (ad_Trailer r).
Definition set_ad_reserved (v : N) (r : AcceptSMCD) : AcceptSMCD :=
  mkAcceptSMCD (ad_Raw r) (ad_Header r) (ad_GID r) (ad_Token r) (ad_DMBEIdx r) (ad_DMBESize r) v
    (ad_reserved2 r) (ad_LinkID r) (ad_reserved3 r) (ad_Trailer r).
Definition set_ad_reserved2 (v : list byte) (r : AcceptSMCD) : AcceptSMCD :=
  mkAcceptSMCD (ad_Raw r) (ad_Header r) (ad_GID r) (ad_Token r) (ad_DMBEIdx r) (ad_DMBESize r)
    (ad_reserved r) v (ad_LinkID r) (ad_reserved3 r) (ad_Trailer r).
Definition set_ad_LinkID (v : N) (r : AcceptSMCD) : AcceptSMCD :=
  mkAcceptSMCD (ad_Raw r) (ad_Header r) (ad_GID r) (ad_Token r) (ad_DMBEIdx r) (ad_DMBESize r)
    (ad_reserved r) (ad_reserved2 r) v (ad_reserved3 r) (ad_Trailer r).
Definition set_ad_reserved3 (v : list byte) (r : AcceptSMCD) : AcceptSMCD :=
  mkAcceptSMCD (ad_Raw r) (ad_Header r) (ad_GID r) (ad_Token r) (ad_DMBEIdx r) (ad_DMBESize r)
    (ad_reserved r) (ad_reserved2 r) (ad_LinkID r) v (ad_Trailer r).
Definition set_ad_Trailer (v : list byte) (r : AcceptSMCD) : AcceptSMCD :=
  mkAcceptSMCD (ad_Raw r) (ad_Header r) (ad_GID r) (ad_Token r) (ad_DMBEIdx r) (ad_DMBESize r)
    (ad_reserved r) (ad_reserved2 r) (ad_LinkID r) (ad_reserved3 r) v.

(** [AcceptSMCR] *)
Definition set_ar_Raw (v : slice) (r : AcceptSMCR) : AcceptSMCR :=
  mkAcceptSMCR v (ar_Header r) (ar_SenderPeerID r) (ar_IBGID r) (ar_IBMAC r) (ar_QPN r)
    (ar_RMBRKey r) (ar_RMBEIdx r) (ar_RMBEAlertToken r) (ar_RMBESize r) (ar_QPMTU r)
    (ar_reserved r) (ar_RMBDMAAddr r) (ar_reserved2 r) (ar_PSN r) (ar_Trailer r).
Definition set_ar_Header (v : Header) (r : AcceptSMCR) : AcceptSMCR :=
  mkAcceptSMCR (ar_Raw r) v (ar_SenderPeerID r) (ar_IBGID r) (ar_IBMAC r) (ar_QPN r)
    (ar_RMBRKey r) (ar_RMBEIdx r) (ar_RMBEAlertToken r) (ar_RMBESize r) (ar_QPMTU r)
    (ar_reserved r) (ar_RMBDMAAddr r) (ar_reserved2 r) (ar_PSN r) (ar_Trailer r).
Definition set_ar_SenderPeerID (v : list byte) (r : AcceptSMCR) : AcceptSMCR :=
  mkAcceptSMCR (ar_Raw r) (ar_Header r) v (ar_IBGID r) (ar_IBMAC r) (ar_QPN r) (ar_RMBRKey r)
    (ar_RMBEIdx r) (ar_RMBEAlertToken r) (ar_RMBESize r) (ar_QPMTU r) (ar_reserved r)
    (ar_RMBDMAAddr r) (ar_reserved2 r) (ar_PSN r) (ar_Trailer r).
Definition set_ar_IBGID (v : list byte) (r : AcceptSMCR) : AcceptSMCR :=
  mkAcceptSMCR (ar_Raw r) (ar_Header r) (ar_SenderPeerID r) v (ar_IBMAC r) (ar_QPN r)
    (ar_RMBRKey r) (ar_RMBEIdx r) (ar_RMBEAlertToken r) (ar_RMBESize r) (ar_QPMTU r)
    (ar_reserved r) (ar_RMBDMAAddr r) (ar_reserved2 r) (ar_PSN r) (ar_Trailer r).
Definition set_ar_IBMAC (v : list byte) (r : AcceptSMCR) : AcceptSMCR :=
  mkAcceptSMCR (ar_Raw r) (ar_Header r) (ar_SenderPeerID r) (ar_IBGID r) v (ar_QPN r)
    (ar_RMBRKey r) (ar_RMBEIdx r) (ar_RMBEAlertToken r) (ar_RMBESize r) (ar_QPMTU r)
    (ar_reserved r) (ar_RMBDMAAddr r) (ar_reserved2 r) (ar_PSN r) (ar_Trailer r).
Definition set_ar_QPN (v : N) (r : AcceptSMCR) : AcceptSMCR :=
  mkAcceptSMCR (ar_Raw r) (ar_Header r) (ar_SenderPeerID r) (ar_IBGID r) (ar_IBMAC r) v
    (ar_RMBRKey r) (ar_RMBEIdx r) (ar_RMBEAlertToken r) (ar_RMBESize r) (ar_QPMTU r)
    (ar_reserved r) (ar_RMBDMAAddr r) (ar_reserved2 r) (ar_PSN r) (ar_Trailer r).
Definition set_ar_RMBRKey (v : N) (r : AcceptSMCR) : AcceptSMCR :=
  mkAcceptSMCR (ar_Raw r) (ar_Header r) (ar_SenderPeerID r) (ar_IBGID r) (ar_IBMAC r) (ar_QPN r)
    v (ar_RMBEIdx r) (ar_RMBEAlertToken r) (ar_RMBESize r) (ar_QPMTU r) (ar_reserved r)
    (ar_RMBDMAAddr r) (ar_reserved2 r) (ar_PSN r) (ar_Trailer r).
Definition set_ar_RMBEIdx (v : N) (r : AcceptSMCR) : AcceptSMCR :=
  mkAcceptSMCR (ar_Raw r) (ar_Header r) (ar_SenderPeerID r) (ar_IBGID r) (ar_IBMAC r) (ar_QPN r)
    (ar_RMBRKey r) v (ar_RMBEAlertToken r) (ar_RMBESize r) (ar_QPMTU r) (ar_reserved r)
    (ar_RMBDMAAddr r) (ar_reserved2 r) (ar_PSN r) (ar_Trailer r).
Definition set_ar_RMBEAlertToken (v : N) (r : AcceptSMCR) : AcceptSMCR :=
  mkAcceptSMCR (ar_Raw r) (ar_Header r) (ar_SenderPeerID r) (ar_IBGID r) (ar_IBMAC r) (ar_QPN r)
    (ar_RMBRKey r) (ar_RMBEIdx r) v (ar_RMBESize r) (ar_QPMTU r) (ar_reserved r)
    (ar_RMBDMAAddr r) (ar_reserved2 r) (ar_PSN r) (ar_Trailer r).
Definition set_ar_RMBESize (v : N) (r : AcceptSMCR) : AcceptSMCR :=
  mkAcceptSMCR (ar_Raw r) (ar_Header r) (ar_SenderPeerID r) (ar_IBGID r) (ar_IBMAC r) (ar_QPN r)
    (ar_RMBRKey r) (ar_RMBEIdx r) (ar_RMBEAlertToken r) v (ar_QPMTU r) (ar_reserved r)
    (ar_RMBDMAAddr r) (ar_reserved2 r) (ar_PSN r) (ar_Trailer r).
Definition set_ar_QPMTU (v : N) (r : AcceptSMCR) : AcceptSMCR :=
  mkAcceptSMCR (ar_Raw r) (ar_Header r) (ar_SenderPeerID r) (ar_IBGID r) (ar_IBMAC r) (ar_QPN r)
    (ar_RMBRKey r) (ar_RMBEIdx r) (ar_RMBEAlertToken r) (ar_RMBESize r) v (ar_reserved r)
    (ar_RMBDMAAddr r) (ar_reserved2 r) (ar_PSN r) (ar_Trailer r).
Definition set_ar_reserved (v : N) (r : AcceptSMCR) : AcceptSMCR :=
  mkAcceptSMCR (ar_Raw r) (ar_Header r) (ar_SenderPeerID r) (ar_IBGID r) (ar_IBMAC r) (ar_QPN r)
    (ar_RMBRKey r) (ar_RMBEIdx r) (ar_RMBEAlertToken r) (ar_RMBESize r) (ar_QPMTU r) v
    (ar_RMBDMAAddr r) (ar_reserved2 r) (ar_PSN r) (ar_Trailer r).
Definition set_ar_RMBDMAAddr (v : N) (r : AcceptSMCR) : AcceptSMCR :=
  mkAcceptSMCR (ar_Raw r) (ar_Header r) (ar_SenderPeerID r) (ar_IBGID r) (ar_IBMAC r) (ar_QPN r)
    (ar_RMBRKey r) (ar_RMBEIdx r) (ar_RMBEAlertToken r) (ar_RMBESize r) (ar_QPMTU r)
    (ar_reserved r) v (ar_reserved2 r) (ar_PSN r) (ar_Trailer r).
Definition set_ar_reserved2 (v : N) (r : AcceptSMCR) : AcceptSMCR :=
  mkAcceptSMCR (ar_Raw r) (ar_Header r) (ar_SenderPeerID r) (ar_IBGID r) (ar_IBMAC r) (ar_QPN r)
    (ar_RMBRKey r) (ar_RMBEIdx r) (ar_RMBEAlertToken r) (ar_RMBESize r) (ar_QPMTU r)
    (ar_reserved r) (ar_RMBDMAAddr r) v (ar_PSN r) (ar_Trailer r).
Definition set_ar_PSN (v : N) (r : AcceptSMCR) : AcceptSMCR :=
  mkAcceptSMCR (ar_Raw r) (ar_Header r) (ar_SenderPeerID r) (ar_IBGID r) (ar_IBMAC r) (ar_QPN r)
    (ar_RMBRKey r) (ar_RMBEIdx r) (ar_RMBEAlertToken r) (ar_RMBESize r) (ar_QPMTU r)
    (ar_reserved r) (ar_RMBDMAAddr r) (ar_reserved2 r) v (ar_Trailer r).
Definition set_ar_Trailer (v : list byte) (r : AcceptSMCR) : AcceptSMCR :=
  mkAcceptSMCR (ar_Raw r) (ar_Header r) (ar_SenderPeerID r) (ar_IBGID r) (ar_IBMAC r) (ar_QPN r)
    (ar_RMBRKey r) (ar_RMBEIdx r) (ar_RMBEAlertToken r) (ar_RMBESize r) (ar_QPMTU r)
    (ar_reserved r) (ar_RMBDMAAddr r) (ar_reserved2 r) (ar_PSN r) v.

(** [AcceptSMCDv2] *)
Definition set_a2_Raw (v : slice) (r : AcceptSMCDv2) : AcceptSMCDv2 :=
  mkAcceptSMCDv2 v (a2_Header r) (a2_GID r) (a2_Token r) (a2_DMBEIdx r) (a2_DMBESize r)
    (a2_reserved r) (a2_reserved2 r) (a2_LinkID r) (a2_ISMv2VCHID r) (a2_EID r) (a2_reserved3 r)
    (a2_reserved4 r) (a2_OSType r) (a2_Release r) (a2_reserved5 r) (a2_Hostname r) (a2_Trailer r).
Definition set_a2_Header (v : Header) (r : AcceptSMCDv2) : AcceptSMCDv2 :=
  mkAcceptSMCDv2 (a2_Raw r) v (a2_GID r) (a2_Token r) (a2_DMBEIdx r) (a2_DMBESize r)
    (a2_reserved r) (a2_reserved2 r) (a2_LinkID r) (a2_ISMv2VCHID r) (a2_EID r) (a2_reserved3 r)
    (a2_reserved4 r) (a2_OSType r) (a2_Release r) (a2_reserved5 r) (a2_Hostname r) (a2_Trailer r).
Definition set_a2_GID (v : N) (r : AcceptSMCDv2) : AcceptSMCDv2 :=
  mkAcceptSMCDv2 (a2_Raw r) (a2_Header r) v (a2_Token r) (a2_DMBEIdx r) (a2_DMBESize r)
    (a2_reserved r) (a2_reserved2 r) (a2_LinkID r) (a2_ISMv2VCHID r) (a2_EID r) (a2_reserved3 r)
    (a2_reserved4 r) (a2_OSType r) (a2_Release r) (a2_reserved5 r) (a2_Hostname r) (a2_Trailer r).
Definition set_a2_Token (v : N) (r : AcceptSMCDv2) : AcceptSMCDv2 :=
  mkAcceptSMCDv2 (a2_Raw r) (a2_Header r) (a2_GID r) v (a2_DMBEIdx r) (a2_DMBESize r)
    (a2_reserved r) (a2_reserved2 r) (a2_LinkID r) (a2_ISMv2VCHID r) (a2_EID r) (a2_reserved3 r)
    (a2_reserved4 r) (a2_OSType r) (a2_Release r) (a2_reserved5 r) (a2_Hostname r) (a2_Trailer r).
Definition set_a2_DMBEIdx (v : N) (r : AcceptSMCDv2) : AcceptSMCDv2 :=
  mkAcceptSMCDv2 (a2_Raw r) (a2_Header r) (a2_GID r) (a2_Token r) v (a2_DMBESize r)
    (a2_reserved r) (a2_reserved2 r) (a2_LinkID r) (a2_ISMv2VCHID r) (a2_EID r) (a2_reserved3 r)
    (a2_reserved4 r) (a2_OSType r) (a2_Release r) (a2_reserved5 r) (a2_Hostname r) (a2_Trailer r).
Definition set_a2_DMBESize (v : N) (r : AcceptSMCDv2) : AcceptSMCDv2 :=
  mkAcceptSMCDv2 (a2_Raw r) (a2_Header r) (a2_GID r) (a2_Token r) (a2_DMBEIdx r) v
    (a2_reserved r) (a2_reserved2 r) (a2_LinkID r) (a2_ISMv2VCHID r) (a2_EID r) (a2_reserved3 r)
    (a2_reserved4 r) (a2_OSType r) (a2_Release r) (a2_reserved5 r) (a2_Hostname r) (a2_Trailer r).
Definition set_a2_reserved (v : N) (r : AcceptSMCDv2) : AcceptSMCDv2 :=
  mkAcceptSMCDv2 (a2_Raw r) (a2_Header r) (a2_GID r) (a2_Token r) (a2_DMBEIdx r) (a2_DMBESize r)
    v (a2_reserved2 r) (a2_LinkID r) (a2_ISMv2VCHID r) (a2_EID r) (a2_reserved3 r)
    (a2_reserved4 r) (a2_OSType r) (a2_Release r) (a2_reserved5 r) (a2_Hostname r) (a2_Trailer r).
Definition set_a2_reserved2 (v : list byte) (r : AcceptSMCDv2) : AcceptSMCDv2 :=
  mkAcceptSMCDv2 (a2_Raw r) (a2_Header r) (a2_GID r) (a2_Token r) (a2_DMBEIdx r) (a2_DMBESize r)
    (a2_reserved r) v (a2_LinkID r) (a2_ISMv2VCHID r) (a2_EID r) (a2_reserved3 r)
    (a2_reserved4 r) (a2_OSType r) (a2_Release r) (a2_reserved5 r) (a2_Hostname r) (a2_Trailer r).
Definition set_a2_LinkID (v : N) (r : AcceptSMCDv2) : AcceptSMCDv2 :=
  mkAcceptSMCDv2 (a2_Raw r) (a2_Header r) (a2_GID r) (a2_Token r) (a2_DMBEIdx r) (a2_DMBESize r)
    (a2_reserved r) (a2_reserved2 r) v (a2_ISMv2VCHID r) (a2_EID r) (a2_reserved3 r)
    (a2_reserved4 r) (a2_OSType r) (a2_Release r) (a2_reserved5 r) (a2_Hostname r) (a2_Trailer r).
Definition set_a2_ISMv2VCHID (v : N) (r : AcceptSMCDv2) : AcceptSMCDv2 :=
  mkAcceptSMCDv2 (a2_Raw r) (a2_Header r) (a2_GID r) (a2_Token r) (a2_DMBEIdx r) (a2_DMBESize r)
    (a2_reserved r) (a2_reserved2 r) (a2_LinkID r) v (a2_EID r) (a2_reserved3 r) (a2_reserved4 r)
    (a2_OSType r) (a2_Release r) (a2_reserved5 r) (a2_Hostname r) (a2_Trailer r).
Definition set_a2_EID (v : list byte) (r : AcceptSMCDv2) : AcceptSMCDv2 :=
  mkAcceptSMCDv2 (a2_Raw r) (a2_Header r) (a2_GID r) (a2_Token r) (a2_DMBEIdx r) (a2_DMBESize r)
    (a2_reserved r) (a2_reserved2 r) (a2_LinkID r) (a2_ISMv2VCHID r) v (a2_reserved3 r)
    (a2_reserved4 r) (a2_OSType r) (a2_Release r) (a2_reserved5 r) (a2_Hostname r) (a2_Trailer r).
Definition set_a2_reserved3 (v : list byte) (r : AcceptSMCDv2) : AcceptSMCDv2 :=
  mkAcceptSMCDv2 (a2_Raw r) (a2_Header r) (a2_GID r) (a2_Token r) (a2_DMBEIdx r) (a2_DMBESize r)
    (a2_reserved r) (a2_reserved2 r) (a2_LinkID r) (a2_ISMv2VCHID r) (a2_EID r) v
    (a2_reserved4 r) (a2_OSType r) (a2_Release r) (a2_reserved5 r) (a2_Hostname r) (a2_Trailer r).
Definition set_a2_reserved4 (v : N) (r : AcceptSMCDv2) : AcceptSMCDv2 :=
  mkAcceptSMCDv2 (a2_Raw r) (a2_Header r) (a2_GID r) (a2_Token r) (a2_DMBEIdx r) (a2_DMBESize r)
    (a2_reserved r) (a2_reserved2 r) (a2_LinkID r) (a2_ISMv2VCHID r) (a2_EID r) (a2_reserved3 r)
    v (a2_OSType r) (a2_Release r) (a2_reserved5 r) (a2_Hostname r) (a2_Trailer r).
Definition set_a2_OSType (v : N) (r : AcceptSMCDv2) : AcceptSMCDv2 :=
  mkAcceptSMCDv2 (a2_Raw r) (a2_Header r) (a2_GID r) (a2_Token r) (a2_DMBEIdx r) (a2_DMBESize r)
    (a2_reserved r) (a2_reserved2 r) (a2_LinkID r) (a2_ISMv2VCHID r) (a2_EID r) (a2_reserved3 r)
    (a2_reserved4 r) v (a2_Release r) (a2_reserved5 r) (a2_Hostname r) (a2_Trailer r).
Definition set_a2_Release (v : N) (r : AcceptSMCDv2) : AcceptSMCDv2 :=
  mkAcceptSMCDv2 (a2_Raw r) (a2_Header r) (a2_GID r) (a2_Token r) (a2_DMBEIdx r) (a2_DMBESize r)
    (a2_reserved r) (a2_reserved2 r) (a2_LinkID r) (a2_ISMv2VCHID r) (a2_EID r) (a2_reserved3 r)
    (a2_reserved4 r) (a2_OSType r) v (a2_reserved5 r) (a2_Hostname r) (a2_Trailer r).
Definition set_a2_reserved5 (v : list byte) (r : AcceptSMCDv2) : AcceptSMCDv2 :=
  mkAcceptSMCDv2 (a2_Raw r) (a2_Header r) (a2_GID r) (a2_Token r) (a2_DMBEIdx r) (a2_DMBESize r)
    (a2_reserved r) (a2_reserved2 r) (a2_LinkID r) (a2_ISMv2VCHID r) (a2_EID r) (a2_reserved3 r)
    (a2_reserved4 r) (a2_OSType r) (a2_Release r) v (a2_Hostname r) (a2_Trailer r).
Definition set_a2_Hostname (v : list byte) (r : AcceptSMCDv2) : AcceptSMCDv2 :=
  mkAcceptSMCDv2 (a2_Raw r) (a2_Header r) (a2_GID r) (a2_Token r) (a2_DMBEIdx r) (a2_DMBESize r)
    (a2_reserved r) (a2_reserved2 r) (a2_LinkID r) (a2_ISMv2VCHID r) (a2_EID r) (a2_reserved3 r)
    (a2_reserved4 r) (a2_OSType r) (a2_Release r) (a2_reserved5 r) v (a2_Trailer r).
Definition set_a2_Trailer (v : list byte) (r : AcceptSMCDv2) : AcceptSMCDv2 :=
  mkAcceptSMCDv2 (a2_Raw r) (a2_Header r) (a2_GID r) (a2_Token r) (a2_DMBEIdx r) (a2_DMBESize r)
    (a2_reserved r) (a2_reserved2 r) (a2_LinkID r) (a2_ISMv2VCHID r) (a2_EID r) (a2_reserved3 r)
    (a2_reserved4 r) (a2_OSType r) (a2_Release r) (a2_reserved5 r) (a2_Hostname r) v.

(** [ConfirmSMCD] *)
Definition set_cd_Accept (v : AcceptSMCD) (r : ConfirmSMCD) : ConfirmSMCD :=
  mkConfirmSMCD v.

(** [ConfirmSMCR] *)
Definition set_cr_Accept (v : AcceptSMCR) (r : ConfirmSMCR) : ConfirmSMCR :=
  mkConfirmSMCR v.

(** [ConfirmSMCDv2] *)
Definition set_c2_Accept (v : AcceptSMCDv2) (r : ConfirmSMCDv2) : ConfirmSMCDv2 :=
  mkConfirmSMCDv2 v.

(** [Decline] *)
Definition set_d_Raw (v : slice) (r : Decline) : Decline :=
  mkDecline v (d_Header r) (d_SenderPeerID r) (d_PeerDiagnosis r) (d_OSType r) (d_reserved r)
    (d_Trailer r).
Definition set_d_Header (v : Header) (r : Decline) : Decline :=
  mkDecline (d_Raw r) v (d_SenderPeerID r) (d_PeerDiagnosis r) (d_OSType r) (d_reserved r)
    (d_Trailer r).
Definition set_d_SenderPeerID (v : list byte) (r : Decline) : Decline :=
  mkDecline (d_Raw r) (d_Header r) v (d_PeerDiagnosis r) (d_OSType r) (d_reserved r)
    (d_Trailer r).
Definition set_d_PeerDiagnosis (v : N) (r : Decline) : Decline :=
  mkDecline (d_Raw r) (d_Header r) (d_SenderPeerID r) v (d_OSType r) (d_reserved r) (d_Trailer r).
Definition set_d_OSType (v : N) (r : Decline) : Decline :=
  mkDecline (d_Raw r) (d_Header r) (d_SenderPeerID r) (d_PeerDiagnosis r) v (d_reserved r)
    (d_Trailer r).
Definition set_d_reserved (v : list byte) (r : Decline) : Decline :=
  mkDecline (d_Raw r) (d_Header r) (d_SenderPeerID r) (d_PeerDiagnosis r) (d_OSType r) v
    (d_Trailer r).
Definition set_d_Trailer (v : list byte) (r : Decline) : Decline :=
  mkDecline (d_Raw r) (d_Header r) (d_SenderPeerID r) (d_PeerDiagnosis r) (d_OSType r)
    (d_reserved r) v.

(** [DeclineV2] *)
Definition set_d2_Raw (v : slice) (r : DeclineV2) : DeclineV2 :=
  mkDeclineV2 v (d2_Header r) (d2_SenderPeerID r) (d2_PeerDiagnosis r) (d2_OSType r)
    (d2_reserved r) (d2_Trailer r).
Definition set_d2_Header (v : Header) (r : DeclineV2) : DeclineV2 :=
  mkDeclineV2 (d2_Raw r) v (d2_SenderPeerID r) (d2_PeerDiagnosis r) (d2_OSType r) (d2_reserved r)
    (d2_Trailer r).
Definition set_d2_SenderPeerID (v : list byte) (r : DeclineV2) : DeclineV2 :=
  mkDeclineV2 (d2_Raw r) (d2_Header r) v (d2_PeerDiagnosis r) (d2_OSType r) (d2_reserved r)
    (d2_Trailer r).
Definition set_d2_PeerDiagnosis (v : N) (r : DeclineV2) : DeclineV2 :=
  mkDeclineV2 (d2_Raw r) (d2_Header r) (d2_SenderPeerID r) v (d2_OSType r) (d2_reserved r)
    (d2_Trailer r).
Definition set_d2_OSType (v : N) (r : DeclineV2) : DeclineV2 :=
  mkDeclineV2 (d2_Raw r) (d2_Header r) (d2_SenderPeerID r) (d2_PeerDiagnosis r) v (d2_reserved r)
    (d2_Trailer r).
Definition set_d2_reserved (v : list byte) (r : DeclineV2) : DeclineV2 :=
  mkDeclineV2 (d2_Raw r) (d2_Header r) (d2_SenderPeerID r) (d2_PeerDiagnosis r) (d2_OSType r) v
    (d2_Trailer r).
Definition set_d2_Trailer (v : list byte) (r : DeclineV2) : DeclineV2 :=
  mkDeclineV2 (d2_Raw r) (d2_Header r) (d2_SenderPeerID r) (d2_PeerDiagnosis r) (d2_OSType r)
    (d2_reserved r) v.

(** [IPInfo] *)
Definition set_i_Prefix (v : list byte) (r : IPInfo) : IPInfo :=
  mkIPInfo v (i_PrefixLen r) (i_reserved2 r) (i_IPv6PrefixesCnt r) (i_IPv6Prefixes r).
Definition set_i_PrefixLen (v : N) (r : IPInfo) : IPInfo :=
  mkIPInfo (i_Prefix r) v (i_reserved2 r) (i_IPv6PrefixesCnt r) (i_IPv6Prefixes r).
Definition set_i_reserved2 (v : list byte) (r : IPInfo) : IPInfo :=
  mkIPInfo (i_Prefix r) (i_PrefixLen r) v (i_IPv6PrefixesCnt r) (i_IPv6Prefixes r).
Definition set_i_IPv6PrefixesCnt (v : N) (r : IPInfo) : IPInfo :=
  mkIPInfo (i_Prefix r) (i_PrefixLen r) (i_reserved2 r) v (i_IPv6Prefixes r).
Definition set_i_IPv6Prefixes (v : list IPv6Prefix) (r : IPInfo) : IPInfo :=
  mkIPInfo (i_Prefix r) (i_PrefixLen r) (i_reserved2 r) (i_IPv6PrefixesCnt r) v.

(** [Proposal] *)
Definition set_p_Raw (v : slice) (r : Proposal) : Proposal :=
  mkProposal v (p_Header r) (p_SenderPeerID r) (p_IBGID r) (p_IBMAC r) (p_IPAreaOffset r)
    (p_SMCDGID r) (p_reserved r) (p_IP r) (p_Trailer r).
Definition set_p_Header (v : Header) (r : Proposal) : Proposal :=
  mkProposal (p_Raw r) v (p_SenderPeerID r) (p_IBGID r) (p_IBMAC r) (p_IPAreaOffset r)
    (p_SMCDGID r) (p_reserved r) (p_IP r) (p_Trailer r).
Definition set_p_SenderPeerID (v : list byte) (r : Proposal) : Proposal :=
  mkProposal (p_Raw r) (p_Header r) v (p_IBGID r) (p_IBMAC r) (p_IPAreaOffset r) (p_SMCDGID r)
    (p_reserved r) (p_IP r) (p_Trailer r).
Definition set_p_IBGID (v : list byte) (r : Proposal) : Proposal :=
  mkProposal (p_Raw r) (p_Header r) (p_SenderPeerID r) v (p_IBMAC r) (p_IPAreaOffset r)
    (p_SMCDGID r) (p_reserved r) (p_IP r) (p_Trailer r).
Definition set_p_IBMAC (v : list byte) (r : Proposal) : Proposal :=
  mkProposal (p_Raw r) (p_Header r) (p_SenderPeerID r) (p_IBGID r) v (p_IPAreaOffset r)
    (p_SMCDGID r) (p_reserved r) (p_IP r) (p_Trailer r).
Definition set_p_IPAreaOffset (v : N) (r : Proposal) : Proposal :=
  mkProposal (p_Raw r) (p_Header r) (p_SenderPeerID r) (p_IBGID r) (p_IBMAC r) v (p_SMCDGID r)
    (p_reserved r) (p_IP r) (p_Trailer r).
Definition set_p_SMCDGID (v : N) (r : Proposal) : Proposal :=
  mkProposal (p_Raw r) (p_Header r) (p_SenderPeerID r) (p_IBGID r) (p_IBMAC r) (p_IPAreaOffset r)
    v (p_reserved r) (p_IP r) (p_Trailer r).
Definition set_p_reserved (v : list byte) (r : Proposal) : Proposal :=
  mkProposal (p_Raw r) (p_Header r) (p_SenderPeerID r) (p_IBGID r) (p_IBMAC r) (p_IPAreaOffset r)
    (p_SMCDGID r) v (p_IP r) (p_Trailer r).
Definition set_p_IP (v : IPInfo) (r : Proposal) : Proposal :=
  mkProposal (p_Raw r) (p_Header r) (p_SenderPeerID r) (p_IBGID r) (p_IBMAC r) (p_IPAreaOffset r)
    (p_SMCDGID r) (p_reserved r) v (p_Trailer r).
Definition set_p_Trailer (v : list byte) (r : Proposal) : Proposal :=
  mkProposal (p_Raw r) (p_Header r) (p_SenderPeerID r) (p_IBGID r) (p_IBMAC r) (p_IPAreaOffset r)
    (p_SMCDGID r) (p_reserved r) (p_IP r) v.

(** [GIDEntry] *)
Definition set_g_GID (v : N) (r : GIDEntry) : GIDEntry :=
  mkGIDEntry v (g_VCHID r).
Definition set_g_VCHID (v : N) (r : GIDEntry) : GIDEntry :=
  mkGIDEntry (g_GID r) v.

(** [V2Ext] *)
Definition set_x_EIDNumber (v : N) (r : V2Ext) : V2Ext :=
  mkV2Ext v (x_GIDNumber r) (x_reserved3 r) (x_Release r) (x_reserved4 r) (x_SEIDInd r)
    (x_reserved5 r) (x_SMCDv2Off r) (x_reserved6 r) (x_EIDArea r).
Definition set_x_GIDNumber (v : N) (r : V2Ext) : V2Ext :=
  mkV2Ext (x_EIDNumber r) v (x_reserved3 r) (x_Release r) (x_reserved4 r) (x_SEIDInd r)
    (x_reserved5 r) (x_SMCDv2Off r) (x_reserved6 r) (x_EIDArea r).
Definition set_x_reserved3 (v : N) (r : V2Ext) : V2Ext :=
  mkV2Ext (x_EIDNumber r) (x_GIDNumber r) v (x_Release r) (x_reserved4 r) (x_SEIDInd r)
    (x_reserved5 r) (x_SMCDv2Off r) (x_reserved6 r) (x_EIDArea r).
Definition set_x_Release (v : N) (r : V2Ext) : V2Ext :=
  mkV2Ext (x_EIDNumber r) (x_GIDNumber r) (x_reserved3 r) v (x_reserved4 r) (x_SEIDInd r)
    (x_reserved5 r) (x_SMCDv2Off r) (x_reserved6 r) (x_EIDArea r).
Definition set_x_reserved4 (v : N) (r : V2Ext) : V2Ext :=
  mkV2Ext (x_EIDNumber r) (x_GIDNumber r) (x_reserved3 r) (x_Release r) v (x_SEIDInd r)
    (x_reserved5 r) (x_SMCDv2Off r) (x_reserved6 r) (x_EIDArea r).
Definition set_x_SEIDInd (v : N) (r : V2Ext) : V2Ext :=
  mkV2Ext (x_EIDNumber r) (x_GIDNumber r) (x_reserved3 r) (x_Release r) (x_reserved4 r) v
    (x_reserved5 r) (x_SMCDv2Off r) (x_reserved6 r) (x_EIDArea r).
Definition set_x_reserved5 (v : list byte) (r : V2Ext) : V2Ext :=
  mkV2Ext (x_EIDNumber r) (x_GIDNumber r) (x_reserved3 r) (x_Release r) (x_reserved4 r)
    (x_SEIDInd r) v (x_SMCDv2Off r) (x_reserved6 r) (x_EIDArea r).
Definition set_x_SMCDv2Off (v : N) (r : V2Ext) : V2Ext :=
  mkV2Ext (x_EIDNumber r) (x_GIDNumber r) (x_reserved3 r) (x_Release r) (x_reserved4 r)
    (x_SEIDInd r) (x_reserved5 r) v (x_reserved6 r) (x_EIDArea r).
Definition set_x_reserved6 (v : list byte) (r : V2Ext) : V2Ext :=
  mkV2Ext (x_EIDNumber r) (x_GIDNumber r) (x_reserved3 r) (x_Release r) (x_reserved4 r)
    (x_SEIDInd r) (x_reserved5 r) (x_SMCDv2Off r) v (x_EIDArea r).
Definition set_x_EIDArea (v : list (list byte)) (r : V2Ext) : V2Ext :=
  mkV2Ext (x_EIDNumber r) (x_GIDNumber r) (x_reserved3 r) (x_Release r) (x_reserved4 r)
    (x_SEIDInd r) (x_reserved5 r) (x_SMCDv2Off r) (x_reserved6 r) v.

(** [SMCDExt] *)
Definition set_y_SEID (v : list byte) (r : SMCDExt) : SMCDExt :=
  mkSMCDExt v (y_reserved7 r) (y_GIDArea r).
Definition set_y_reserved7 (v : list byte) (r : SMCDExt) : SMCDExt :=
  mkSMCDExt (y_SEID r) v (y_GIDArea r).
Definition set_y_GIDArea (v : list GIDEntry) (r : SMCDExt) : SMCDExt :=
  mkSMCDExt (y_SEID r) (y_reserved7 r) v.

(** [ProposalV2] *)
Definition set_p2_Raw (v : slice) (r : ProposalV2) : ProposalV2 :=
  mkProposalV2 v (p2_Header r) (p2_SenderPeerID r) (p2_IBGID r) (p2_IBMAC r) (p2_IPAreaOffset r)
    (p2_SMCDGID r) (p2_ISMv2VCHID r) (p2_SMCv2Offset r) (p2_reserved r) (p2_IP r) (p2_Ext r)
    (p2_SMCD r) (p2_Trailer r).
Definition set_p2_Header (v : Header) (r : ProposalV2) : ProposalV2 :=
  mkProposalV2 (p2_Raw r) v (p2_SenderPeerID r) (p2_IBGID r) (p2_IBMAC r) (p2_IPAreaOffset r)
    (p2_SMCDGID r) (p2_ISMv2VCHID r) (p2_SMCv2Offset r) (p2_reserved r) (p2_IP r) (p2_Ext r)
    (p2_SMCD r) (p2_Trailer r).
Definition set_p2_SenderPeerID (v : list byte) (r : ProposalV2) : ProposalV2 :=
  mkProposalV2 (p2_Raw r) (p2_Header r) v (p2_IBGID r) (p2_IBMAC r) (p2_IPAreaOffset r)
    (p2_SMCDGID r) (p2_ISMv2VCHID r) (p2_SMCv2Offset r) (p2_reserved r) (p2_IP r) (p2_Ext r)
    (p2_SMCD r) (p2_Trailer r).
Definition set_p2_IBGID (v : list byte) (r : ProposalV2) : ProposalV2 :=
  mkProposalV2 (p2_Raw r) (p2_Header r) (p2_SenderPeerID r) v (p2_IBMAC r) (p2_IPAreaOffset r)
    (p2_SMCDGID r) (p2_ISMv2VCHID r) (p2_SMCv2Offset r) (p2_reserved r) (p2_IP r) (p2_Ext r)
    (p2_SMCD r) (p2_Trailer r).
Definition set_p2_IBMAC (v : list byte) (r : ProposalV2) : ProposalV2 :=
  mkProposalV2 (p2_Raw r) (p2_Header r) (p2_SenderPeerID r) (p2_IBGID r) v (p2_IPAreaOffset r)
    (p2_SMCDGID r) (p2_ISMv2VCHID r) (p2_SMCv2Offset r) (p2_reserved r) (p2_IP r) (p2_Ext r)
    (p2_SMCD r) (p2_Trailer r).
Definition set_p2_IPAreaOffset (v : N) (r : ProposalV2) : ProposalV2 :=
  mkProposalV2 (p2_Raw r) (p2_Header r) (p2_SenderPeerID r) (p2_IBGID r) (p2_IBMAC r) v
    (p2_SMCDGID r) (p2_ISMv2VCHID r) (p2_SMCv2Offset r) (p2_reserved r) (p2_IP r) (p2_Ext r)
    (p2_SMCD r) (p2_Trailer r).
Definition set_p2_SMCDGID (v : N) (r : ProposalV2) : ProposalV2 :=
  mkProposalV2 (p2_Raw r) (p2_Header r) (p2_SenderPeerID r) (p2_IBGID r) (p2_IBMAC r)
    (p2_IPAreaOffset r) v (p2_ISMv2VCHID r) (p2_SMCv2Offset r) (p2_reserved r) (p2_IP r)
    (p2_Ext r) (p2_SMCD r) (p2_Trailer r).
Definition set_p2_ISMv2VCHID (v : N) (r : ProposalV2) : ProposalV2 :=
  mkProposalV2 (p2_Raw r) (p2_Header r) (p2_SenderPeerID r) (p2_IBGID r) (p2_IBMAC r)
    (p2_IPAreaOffset r) (p2_SMCDGID r) v (p2_SMCv2Offset r) (p2_reserved r) (p2_IP r) (p2_Ext r)
    (p2_SMCD r) (p2_Trailer r).
Definition set_p2_SMCv2Offset (v : N) (r : ProposalV2) : ProposalV2 :=
  mkProposalV2 (p2_Raw r) (p2_Header r) (p2_SenderPeerID r) (p2_IBGID r) (p2_IBMAC r)
    (p2_IPAreaOffset r) (p2_SMCDGID r) (p2_ISMv2VCHID r) v (p2_reserved r) (p2_IP r) (p2_Ext r)
    (p2_SMCD r) (p2_Trailer r).
Definition set_p2_reserved (v : list byte) (r : ProposalV2) : ProposalV2 :=
  mkProposalV2 (p2_Raw r) (p2_Header r) (p2_SenderPeerID r) (p2_IBGID r) (p2_IBMAC r)
    (p2_IPAreaOffset r) (p2_SMCDGID r) (p2_ISMv2VCHID r) (p2_SMCv2Offset r) v (p2_IP r)
    (p2_Ext r) (p2_SMCD r) (p2_Trailer r).
Definition set_p2_IP (v : IPInfo) (r : ProposalV2) : ProposalV2 :=
  mkProposalV2 (p2_Raw r) (p2_Header r) (p2_SenderPeerID r) (p2_IBGID r) (p2_IBMAC r)
    (p2_IPAreaOffset r) (p2_SMCDGID r) (p2_ISMv2VCHID r) (p2_SMCv2Offset r) (p2_reserved r) v
    (p2_Ext r) (p2_SMCD r) (p2_Trailer r).
Definition set_p2_Ext (v : V2Ext) (r : ProposalV2) : ProposalV2 :=
  mkProposalV2 (p2_Raw r) (p2_Header r) (p2_SenderPeerID r) (p2_IBGID r) (p2_IBMAC r)
    (p2_IPAreaOffset r) (p2_SMCDGID r) (p2_ISMv2VCHID r) (p2_SMCv2Offset r) (p2_reserved r)
    (p2_IP r) v (p2_SMCD r) (p2_Trailer r).
Definition set_p2_SMCD (v : SMCDExt) (r : ProposalV2) : ProposalV2 :=
  mkProposalV2 (p2_Raw r) (p2_Header r) (p2_SenderPeerID r) (p2_IBGID r) (p2_IBMAC r)
    (p2_IPAreaOffset r) (p2_SMCDGID r) (p2_ISMv2VCHID r) (p2_SMCv2Offset r) (p2_reserved r)
    (p2_IP r) (p2_Ext r) v (p2_Trailer r).
Definition set_p2_Trailer (v : list byte) (r : ProposalV2) : ProposalV2 :=
  mkProposalV2 (p2_Raw r) (p2_Header r) (p2_SenderPeerID r) (p2_IBGID r) (p2_IBMAC r)
    (p2_IPAreaOffset r) (p2_SMCDGID r) (p2_ISMv2VCHID r) (p2_SMCv2Offset r) (p2_reserved r)
    (p2_IP r) (p2_Ext r) (p2_SMCD r) v.

(** [BaseMsg] *)
Definition set_b_Raw (v : list byte) (r : BaseMsg) : BaseMsg :=
  mkBaseMsg v (b_Type r) (b_Length r).
Definition set_b_Type (v : N) (r : BaseMsg) : BaseMsg :=
  mkBaseMsg (b_Raw r) v (b_Length r).
Definition set_b_Length (v : N) (r : BaseMsg) : BaseMsg :=
  mkBaseMsg (b_Raw r) (b_Type r) v.

(** [CDC] *)
Definition set_c_Base (v : BaseMsg) (r : CDC) : CDC :=
  mkCDC v (c_SeqNum r) (c_AlertTkn r) (c_res1 r) (c_ProdWrap r) (c_ProdCurs r) (c_res2 r)
    (c_ConsWrap r) (c_ConsCurs r) (c_B r) (c_P r) (c_U r) (c_R r) (c_F r) (c_res3 r) (c_D r)
    (c_C r) (c_A r) (c_res4 r).
Definition set_c_SeqNum (v : N) (r : CDC) : CDC :=
  mkCDC (c_Base r) v (c_AlertTkn r) (c_res1 r) (c_ProdWrap r) (c_ProdCurs r) (c_res2 r)
    (c_ConsWrap r) (c_ConsCurs r) (c_B r) (c_P r) (c_U r) (c_R r) (c_F r) (c_res3 r) (c_D r)
    (c_C r) (c_A r) (c_res4 r).
Definition set_c_AlertTkn (v : N) (r : CDC) : CDC :=
  mkCDC (c_Base r) (c_SeqNum r) v (c_res1 r) (c_ProdWrap r) (c_ProdCurs r) (c_res2 r)
    (c_ConsWrap r) (c_ConsCurs r) (c_B r) (c_P r) (c_U r) (c_R r) (c_F r) (c_res3 r) (c_D r)
    (c_C r) (c_A r) (c_res4 r).
Definition set_c_res1 (v : list byte) (r : CDC) : CDC :=
  mkCDC (c_Base r) (c_SeqNum r) (c_AlertTkn r) v (c_ProdWrap r) (c_ProdCurs r) (c_res2 r)
    (c_ConsWrap r) (c_ConsCurs r) (c_B r) (c_P r) (c_U r) (c_R r) (c_F r) (c_res3 r) (c_D r)
    (c_C r) (c_A r) (c_res4 r).
Definition set_c_ProdWrap (v : N) (r : CDC) : CDC :=
  mkCDC (c_Base r) (c_SeqNum r) (c_AlertTkn r) (c_res1 r) v (c_ProdCurs r) (c_res2 r)
    (c_ConsWrap r) (c_ConsCurs r) (c_B r) (c_P r) (c_U r) (c_R r) (c_F r) (c_res3 r) (c_D r)
    (c_C r) (c_A r) (c_res4 r).
Definition set_c_ProdCurs (v : N) (r : CDC) : CDC :=
  mkCDC (c_Base r) (c_SeqNum r) (c_AlertTkn r) (c_res1 r) (c_ProdWrap r) v (c_res2 r)
    (c_ConsWrap r) (c_ConsCurs r) (c_B r) (c_P r) (c_U r) (c_R r) (c_F r) (c_res3 r) (c_D r)
    (c_C r) (c_A r) (c_res4 r).
Definition set_c_res2 (v : list byte) (r : CDC) : CDC :=
  mkCDC (c_Base r) (c_SeqNum r) (c_AlertTkn r) (c_res1 r) (c_ProdWrap r) (c_ProdCurs r) v
    (c_ConsWrap r) (c_ConsCurs r) (c_B r) (c_P r) (c_U r) (c_R r) (c_F r) (c_res3 r) (c_D r)
    (c_C r) (c_A r) (c_res4 r).
Definition set_c_ConsWrap (v : N) (r : CDC) : CDC :=
  mkCDC (c_Base r) (c_SeqNum r) (c_AlertTkn r) (c_res1 r) (c_ProdWrap r) (c_ProdCurs r)
    (c_res2 r) v (c_ConsCurs r) (c_B r) (c_P r) (c_U r) (c_R r) (c_F r) (c_res3 r) (c_D r)
    (c_C r) (c_A r) (c_res4 r).
Definition set_c_ConsCurs (v : N) (r : CDC) : CDC :=
  mkCDC (c_Base r) (c_SeqNum r) (c_AlertTkn r) (c_res1 r) (c_ProdWrap r) (c_ProdCurs r)
    (c_res2 r) (c_ConsWrap r) v (c_B r) (c_P r) (c_U r) (c_R r) (c_F r) (c_res3 r) (c_D r)
    (c_C r) (c_A r) (c_res4 r).
Definition set_c_B (v : bool) (r : CDC) : CDC :=
  mkCDC (c_Base r) (c_SeqNum r) (c_AlertTkn r) (c_res1 r) (c_ProdWrap r) (c_ProdCurs r)
    (c_res2 r) (c_ConsWrap r) (c_ConsCurs r) v (c_P r) (c_U r) (c_R r) (c_F r) (c_res3 r) (c_D r)
    (c_C r) (c_A r) (c_res4 r).
Definition set_c_P (v : bool) (r : CDC) : CDC :=
  mkCDC (c_Base r) (c_SeqNum r) (c_AlertTkn r) (c_res1 r) (c_ProdWrap r) (c_ProdCurs r)
    (c_res2 r) (c_ConsWrap r) (c_ConsCurs r) (c_B r) v (c_U r) (c_R r) (c_F r) (c_res3 r) (c_D r)
    (c_C r) (c_A r) (c_res4 r).
Definition set_c_U (v : bool) (r : CDC) : CDC :=
  mkCDC (c_Base r) (c_SeqNum r) (c_AlertTkn r) (c_res1 r) (c_ProdWrap r) (c_ProdCurs r)
    (c_res2 r) (c_ConsWrap r) (c_ConsCurs r) (c_B r) (c_P r) v (c_R r) (c_F r) (c_res3 r) (c_D r)
    (c_C r) (c_A r) (c_res4 r).
Definition set_c_R (v : bool) (r : CDC) : CDC :=
  mkCDC (c_Base r) (c_SeqNum r) (c_AlertTkn r) (c_res1 r) (c_ProdWrap r) (c_ProdCurs r)
    (c_res2 r) (c_ConsWrap r) (c_ConsCurs r) (c_B r) (c_P r) (c_U r) v (c_F r) (c_res3 r) (c_D r)
    (c_C r) (c_A r) (c_res4 r).
Definition set_c_F (v : bool) (r : CDC) : CDC :=
  mkCDC (c_Base r) (c_SeqNum r) (c_AlertTkn r) (c_res1 r) (c_ProdWrap r) (c_ProdCurs r)
    (c_res2 r) (c_ConsWrap r) (c_ConsCurs r) (c_B r) (c_P r) (c_U r) (c_R r) v (c_res3 r) (c_D r)
    (c_C r) (c_A r) (c_res4 r).
Definition set_c_res3 (v : N) (r : CDC) : CDC :=
  mkCDC (c_Base r) (c_SeqNum r) (c_AlertTkn r) (c_res1 r) (c_ProdWrap r) (c_ProdCurs r)
    (c_res2 r) (c_ConsWrap r) (c_ConsCurs r) (c_B r) (c_P r) (c_U r) (c_R r) (c_F r) v (c_D r)
    (c_C r) (c_A r) (c_res4 r).
Definition set_c_D (v : bool) (r : CDC) : CDC :=
  mkCDC (c_Base r) (c_SeqNum r) (c_AlertTkn r) (c_res1 r) (c_ProdWrap r) (c_ProdCurs r)
    (c_res2 r) (c_ConsWrap r) (c_ConsCurs r) (c_B r) (c_P r) (c_U r) (c_R r) (c_F r) (c_res3 r) v
    (c_C r) (c_A r) (c_res4 r).
Definition set_c_C (v : bool) (r : CDC) : CDC :=
  mkCDC (c_Base r) (c_SeqNum r) (c_AlertTkn r) (c_res1 r) (c_ProdWrap r) (c_ProdCurs r)
    (c_res2 r) (c_ConsWrap r) (c_ConsCurs r) (c_B r) (c_P r) (c_U r) (c_R r) (c_F r) (c_res3 r)
    (c_D r) v (c_A r) (c_res4 r).
Definition set_c_A (v : bool) (r : CDC) : CDC :=
  mkCDC (c_Base r) (c_SeqNum r) (c_AlertTkn r) (c_res1 r) (c_ProdWrap r) (c_ProdCurs r)
    (c_res2 r) (c_ConsWrap r) (c_ConsCurs r) (c_B r) (c_P r) (c_U r) (c_R r) (c_F r) (c_res3 r)
    (c_D r) (c_C r) v (c_res4 r).
Definition set_c_res4 (v : list byte) (r : CDC) : CDC :=
  mkCDC (c_Base r) (c_SeqNum r) (c_AlertTkn r) (c_res1 r) (c_ProdWrap r) (c_ProdCurs r)
    (c_res2 r) (c_ConsWrap r) (c_ConsCurs r) (c_B r) (c_P r) (c_U r) (c_R r) (c_F r) (c_res3 r)
    (c_D r) (c_C r) (c_A r) v.

(** [Other] *)
Definition set_o_Base (v : BaseMsg) (r : Other) : Other :=
  mkOther v.

(** [AddLink] *)
Definition set_al_Base (v : BaseMsg) (r : AddLink) : AddLink :=
  mkAddLink v (al_res1 r) (al_RsnCode r) (al_Reply r) (al_Reject r) (al_res2 r) (al_SenderMAC r)
    (al_res5 r) (al_SenderGID r) (al_SenderQP r) (al_Link r) (al_res3 r) (al_MTU r) (al_PSN r)
    (al_res4 r).
Definition set_al_res1 (v : N) (r : AddLink) : AddLink :=
  mkAddLink (al_Base r) v (al_RsnCode r) (al_Reply r) (al_Reject r) (al_res2 r) (al_SenderMAC r)
    (al_res5 r) (al_SenderGID r) (al_SenderQP r) (al_Link r) (al_res3 r) (al_MTU r) (al_PSN r)
    (al_res4 r).
Definition set_al_RsnCode (v : N) (r : AddLink) : AddLink :=
  mkAddLink (al_Base r) (al_res1 r) v (al_Reply r) (al_Reject r) (al_res2 r) (al_SenderMAC r)
    (al_res5 r) (al_SenderGID r) (al_SenderQP r) (al_Link r) (al_res3 r) (al_MTU r) (al_PSN r)
    (al_res4 r).
Definition set_al_Reply (v : bool) (r : AddLink) : AddLink :=
  mkAddLink (al_Base r) (al_res1 r) (al_RsnCode r) v (al_Reject r) (al_res2 r) (al_SenderMAC r)
    (al_res5 r) (al_SenderGID r) (al_SenderQP r) (al_Link r) (al_res3 r) (al_MTU r) (al_PSN r)
    (al_res4 r).
Definition set_al_Reject (v : bool) (r : AddLink) : AddLink :=
  mkAddLink (al_Base r) (al_res1 r) (al_RsnCode r) (al_Reply r) v (al_res2 r) (al_SenderMAC r)
    (al_res5 r) (al_SenderGID r) (al_SenderQP r) (al_Link r) (al_res3 r) (al_MTU r) (al_PSN r)
    (al_res4 r).
Definition set_al_res2 (v : N) (r : AddLink) : AddLink :=
  mkAddLink (al_Base r) (al_res1 r) (al_RsnCode r) (al_Reply r) (al_Reject r) v (al_SenderMAC r)
    (al_res5 r) (al_SenderGID r) (al_SenderQP r) (al_Link r) (al_res3 r) (al_MTU r) (al_PSN r)
    (al_res4 r).
Definition set_al_SenderMAC (v : list byte) (r : AddLink) : AddLink :=
  mkAddLink (al_Base r) (al_res1 r) (al_RsnCode r) (al_Reply r) (al_Reject r) (al_res2 r) v
    (al_res5 r) (al_SenderGID r) (al_SenderQP r) (al_Link r) (al_res3 r) (al_MTU r) (al_PSN r)
    (al_res4 r).
Definition set_al_res5 (v : list byte) (r : AddLink) : AddLink :=
  mkAddLink (al_Base r) (al_res1 r) (al_RsnCode r) (al_Reply r) (al_Reject r) (al_res2 r)
    (al_SenderMAC r) v (al_SenderGID r) (al_SenderQP r) (al_Link r) (al_res3 r) (al_MTU r)
    (al_PSN r) (al_res4 r).
Definition set_al_SenderGID (v : list byte) (r : AddLink) : AddLink :=
  mkAddLink (al_Base r) (al_res1 r) (al_RsnCode r) (al_Reply r) (al_Reject r) (al_res2 r)
    (al_SenderMAC r) (al_res5 r) v (al_SenderQP r) (al_Link r) (al_res3 r) (al_MTU r) (al_PSN r)
    (al_res4 r).
Definition set_al_SenderQP (v : N) (r : AddLink) : AddLink :=
  mkAddLink (al_Base r) (al_res1 r) (al_RsnCode r) (al_Reply r) (al_Reject r) (al_res2 r)
    (al_SenderMAC r) (al_res5 r) (al_SenderGID r) v (al_Link r) (al_res3 r) (al_MTU r) (al_PSN r)
    (al_res4 r).
Definition set_al_Link (v : N) (r : AddLink) : AddLink :=
  mkAddLink (al_Base r) (al_res1 r) (al_RsnCode r) (al_Reply r) (al_Reject r) (al_res2 r)
    (al_SenderMAC r) (al_res5 r) (al_SenderGID r) (al_SenderQP r) v (al_res3 r) (al_MTU r)
    (al_PSN r) (al_res4 r).
Definition set_al_res3 (v : N) (r : AddLink) : AddLink :=
  mkAddLink (al_Base r) (al_res1 r) (al_RsnCode r) (al_Reply r) (al_Reject r) (al_res2 r)
    (al_SenderMAC r) (al_res5 r) (al_SenderGID r) (al_SenderQP r) (al_Link r) v (al_MTU r)
    (al_PSN r) (al_res4 r).
Definition set_al_MTU (v : N) (r : AddLink) : AddLink :=
  mkAddLink (al_Base r) (al_res1 r) (al_RsnCode r) (al_Reply r) (al_Reject r) (al_res2 r)
    (al_SenderMAC r) (al_res5 r) (al_SenderGID r) (al_SenderQP r) (al_Link r) (al_res3 r) v
    (al_PSN r) (al_res4 r).
Definition set_al_PSN (v : N) (r : AddLink) : AddLink :=
  mkAddLink (al_Base r) (al_res1 r) (al_RsnCode r) (al_Reply r) (al_Reject r) (al_res2 r)
    (al_SenderMAC r) (al_res5 r) (al_SenderGID r) (al_SenderQP r) (al_Link r) (al_res3 r)
    (al_MTU r) v (al_res4 r).
Definition set_al_res4 (v : list byte) (r : AddLink) : AddLink :=
  mkAddLink (al_Base r) (al_res1 r) (al_RsnCode r) (al_Reply r) (al_Reject r) (al_res2 r)
    (al_SenderMAC r) (al_res5 r) (al_SenderGID r) (al_SenderQP r) (al_Link r) (al_res3 r)
    (al_MTU r) (al_PSN r) v.

(** [RKeyPair] *)
Definition set_rp_ReferenceRKey (v : N) (r : RKeyPair) : RKeyPair :=
  mkRKeyPair v (rp_NewRKey r) (rp_NewVAddr r).
Definition set_rp_NewRKey (v : N) (r : RKeyPair) : RKeyPair :=
  mkRKeyPair (rp_ReferenceRKey r) v (rp_NewVAddr r).
Definition set_rp_NewVAddr (v : N) (r : RKeyPair) : RKeyPair :=
  mkRKeyPair (rp_ReferenceRKey r) (rp_NewRKey r) v.

(** [AddLinkCont] *)
Definition set_ac_Base (v : BaseMsg) (r : AddLinkCont) : AddLinkCont :=
  mkAddLinkCont v (ac_res1 r) (ac_Reply r) (ac_res2 r) (ac_Link r) (ac_NumRTokens r) (ac_res3 r)
    (ac_RKeyPairs r) (ac_res4 r).
Definition set_ac_res1 (v : N) (r : AddLinkCont) : AddLinkCont :=
  mkAddLinkCont (ac_Base r) v (ac_Reply r) (ac_res2 r) (ac_Link r) (ac_NumRTokens r) (ac_res3 r)
    (ac_RKeyPairs r) (ac_res4 r).
Definition set_ac_Reply (v : bool) (r : AddLinkCont) : AddLinkCont :=
  mkAddLinkCont (ac_Base r) (ac_res1 r) v (ac_res2 r) (ac_Link r) (ac_NumRTokens r) (ac_res3 r)
    (ac_RKeyPairs r) (ac_res4 r).
Definition set_ac_res2 (v : N) (r : AddLinkCont) : AddLinkCont :=
  mkAddLinkCont (ac_Base r) (ac_res1 r) (ac_Reply r) v (ac_Link r) (ac_NumRTokens r) (ac_res3 r)
    (ac_RKeyPairs r) (ac_res4 r).
Definition set_ac_Link (v : N) (r : AddLinkCont) : AddLinkCont :=
  mkAddLinkCont (ac_Base r) (ac_res1 r) (ac_Reply r) (ac_res2 r) v (ac_NumRTokens r) (ac_res3 r)
    (ac_RKeyPairs r) (ac_res4 r).
Definition set_ac_NumRTokens (v : N) (r : AddLinkCont) : AddLinkCont :=
  mkAddLinkCont (ac_Base r) (ac_res1 r) (ac_Reply r) (ac_res2 r) (ac_Link r) v (ac_res3 r)
    (ac_RKeyPairs r) (ac_res4 r).
Definition set_ac_res3 (v : list byte) (r : AddLinkCont) : AddLinkCont :=
  mkAddLinkCont (ac_Base r) (ac_res1 r) (ac_Reply r) (ac_res2 r) (ac_Link r) (ac_NumRTokens r) v
    (ac_RKeyPairs r) (ac_res4 r).
Definition set_ac_RKeyPairs (v : list RKeyPair) (r : AddLinkCont) : AddLinkCont :=
  mkAddLinkCont (ac_Base r) (ac_res1 r) (ac_Reply r) (ac_res2 r) (ac_Link r) (ac_NumRTokens r)
    (ac_res3 r) v (ac_res4 r).
Definition set_ac_res4 (v : list byte) (r : AddLinkCont) : AddLinkCont :=
  mkAddLinkCont (ac_Base r) (ac_res1 r) (ac_Reply r) (ac_res2 r) (ac_Link r) (ac_NumRTokens r)
    (ac_res3 r) (ac_RKeyPairs r) v.

(** [ConfirmLink] *)
Definition set_cl_Base (v : BaseMsg) (r : ConfirmLink) : ConfirmLink :=
  mkConfirmLink v (cl_res1 r) (cl_Reply r) (cl_res2 r) (cl_SenderMAC r) (cl_SenderGID r)
    (cl_SenderQP r) (cl_Link r) (cl_SenderLinkUserID r) (cl_MaxLinks r) (cl_res3 r).
Definition set_cl_res1 (v : N) (r : ConfirmLink) : ConfirmLink :=
  mkConfirmLink (cl_Base r) v (cl_Reply r) (cl_res2 r) (cl_SenderMAC r) (cl_SenderGID r)
    (cl_SenderQP r) (cl_Link r) (cl_SenderLinkUserID r) (cl_MaxLinks r) (cl_res3 r).
Definition set_cl_Reply (v : bool) (r : ConfirmLink) : ConfirmLink :=
  mkConfirmLink (cl_Base r) (cl_res1 r) v (cl_res2 r) (cl_SenderMAC r) (cl_SenderGID r)
    (cl_SenderQP r) (cl_Link r) (cl_SenderLinkUserID r) (cl_MaxLinks r) (cl_res3 r).
Definition set_cl_res2 (v : N) (r : ConfirmLink) : ConfirmLink :=
  mkConfirmLink (cl_Base r) (cl_res1 r) (cl_Reply r) v (cl_SenderMAC r) (cl_SenderGID r)
    (cl_SenderQP r) (cl_Link r) (cl_SenderLinkUserID r) (cl_MaxLinks r) (cl_res3 r).
Definition set_cl_SenderMAC (v : list byte) (r : ConfirmLink) : ConfirmLink :=
  mkConfirmLink (cl_Base r) (cl_res1 r) (cl_Reply r) (cl_res2 r) v (cl_SenderGID r)
    (cl_SenderQP r) (cl_Link r) (cl_SenderLinkUserID r) (cl_MaxLinks r) (cl_res3 r).
Definition set_cl_SenderGID (v : list byte) (r : ConfirmLink) : ConfirmLink :=
  mkConfirmLink (cl_Base r) (cl_res1 r) (cl_Reply r) (cl_res2 r) (cl_SenderMAC r) v
    (cl_SenderQP r) (cl_Link r) (cl_SenderLinkUserID r) (cl_MaxLinks r) (cl_res3 r).
Definition set_cl_SenderQP (v : N) (r : ConfirmLink) : ConfirmLink :=
  mkConfirmLink (cl_Base r) (cl_res1 r) (cl_Reply r) (cl_res2 r) (cl_SenderMAC r)
    (cl_SenderGID r) v (cl_Link r) (cl_SenderLinkUserID r) (cl_MaxLinks r) (cl_res3 r).
Definition set_cl_Link (v : N) (r : ConfirmLink) : ConfirmLink :=
  mkConfirmLink (cl_Base r) (cl_res1 r) (cl_Reply r) (cl_res2 r) (cl_SenderMAC r)
    (cl_SenderGID r) (cl_SenderQP r) v (cl_SenderLinkUserID r) (cl_MaxLinks r) (cl_res3 r).
Definition set_cl_SenderLinkUserID (v : N) (r : ConfirmLink) : ConfirmLink :=
  mkConfirmLink (cl_Base r) (cl_res1 r) (cl_Reply r) (cl_res2 r) (cl_SenderMAC r)
    (cl_SenderGID r) (cl_SenderQP r) (cl_Link r) v (cl_MaxLinks r) (cl_res3 r).
Definition set_cl_MaxLinks (v : N) (r : ConfirmLink) : ConfirmLink :=
  mkConfirmLink (cl_Base r) (cl_res1 r) (cl_Reply r) (cl_res2 r) (cl_SenderMAC r)
    (cl_SenderGID r) (cl_SenderQP r) (cl_Link r) (cl_SenderLinkUserID r) v (cl_res3 r).
Definition set_cl_res3 (v : list byte) (r : ConfirmLink) : ConfirmLink :=
  mkConfirmLink (cl_Base r) (cl_res1 r) (cl_Reply r) (cl_res2 r) (cl_SenderMAC r)
    (cl_SenderGID r) (cl_SenderQP r) (cl_Link r) (cl_SenderLinkUserID r) (cl_MaxLinks r) v.

(** [RMBSpec] *)
Definition set_rs_Link (v : N) (r : RMBSpec) : RMBSpec :=
  mkRMBSpec v (rs_RKey r) (rs_VAddr r).
Definition set_rs_RKey (v : N) (r : RMBSpec) : RMBSpec :=
  mkRMBSpec (rs_Link r) v (rs_VAddr r).
Definition set_rs_VAddr (v : N) (r : RMBSpec) : RMBSpec :=
  mkRMBSpec (rs_Link r) (rs_RKey r) v.

(** [ConfirmRKey] *)
Definition set_ck_Base (v : BaseMsg) (r : ConfirmRKey) : ConfirmRKey :=
  mkConfirmRKey v (ck_res1 r) (ck_Reply r) (ck_res2 r) (ck_Reject r) (ck_Retry r) (ck_res3 r)
    (ck_NumTkns r) (ck_RKey r) (ck_VAddr r) (ck_OtherRMBs r) (ck_res4 r).
Definition set_ck_res1 (v : N) (r : ConfirmRKey) : ConfirmRKey :=
  mkConfirmRKey (ck_Base r) v (ck_Reply r) (ck_res2 r) (ck_Reject r) (ck_Retry r) (ck_res3 r)
    (ck_NumTkns r) (ck_RKey r) (ck_VAddr r) (ck_OtherRMBs r) (ck_res4 r).
Definition set_ck_Reply (v : bool) (r : ConfirmRKey) : ConfirmRKey :=
  mkConfirmRKey (ck_Base r) (ck_res1 r) v (ck_res2 r) (ck_Reject r) (ck_Retry r) (ck_res3 r)
    (ck_NumTkns r) (ck_RKey r) (ck_VAddr r) (ck_OtherRMBs r) (ck_res4 r).
Definition set_ck_res2 (v : N) (r : ConfirmRKey) : ConfirmRKey :=
  mkConfirmRKey (ck_Base r) (ck_res1 r) (ck_Reply r) v (ck_Reject r) (ck_Retry r) (ck_res3 r)
    (ck_NumTkns r) (ck_RKey r) (ck_VAddr r) (ck_OtherRMBs r) (ck_res4 r).
Definition set_ck_Reject (v : bool) (r : ConfirmRKey) : ConfirmRKey :=
  mkConfirmRKey (ck_Base r) (ck_res1 r) (ck_Reply r) (ck_res2 r) v (ck_Retry r) (ck_res3 r)
    (ck_NumTkns r) (ck_RKey r) (ck_VAddr r) (ck_OtherRMBs r) (ck_res4 r).
Definition set_ck_Retry (v : bool) (r : ConfirmRKey) : ConfirmRKey :=
  mkConfirmRKey (ck_Base r) (ck_res1 r) (ck_Reply r) (ck_res2 r) (ck_Reject r) v (ck_res3 r)
    (ck_NumTkns r) (ck_RKey r) (ck_VAddr r) (ck_OtherRMBs r) (ck_res4 r).
Definition set_ck_res3 (v : N) (r : ConfirmRKey) : ConfirmRKey :=
  mkConfirmRKey (ck_Base r) (ck_res1 r) (ck_Reply r) (ck_res2 r) (ck_Reject r) (ck_Retry r) v
    (ck_NumTkns r) (ck_RKey r) (ck_VAddr r) (ck_OtherRMBs r) (ck_res4 r).
Definition set_ck_NumTkns (v : N) (r : ConfirmRKey) : ConfirmRKey :=
  mkConfirmRKey (ck_Base r) (ck_res1 r) (ck_Reply r) (ck_res2 r) (ck_Reject r) (ck_Retry r)
    (ck_res3 r) v (ck_RKey r) (ck_VAddr r) (ck_OtherRMBs r) (ck_res4 r).
Definition set_ck_RKey (v : N) (r : ConfirmRKey) : ConfirmRKey :=
  mkConfirmRKey (ck_Base r) (ck_res1 r) (ck_Reply r) (ck_res2 r) (ck_Reject r) (ck_Retry r)
    (ck_res3 r) (ck_NumTkns r) v (ck_VAddr r) (ck_OtherRMBs r) (ck_res4 r).
Definition set_ck_VAddr (v : N) (r : ConfirmRKey) : ConfirmRKey :=
  mkConfirmRKey (ck_Base r) (ck_res1 r) (ck_Reply r) (ck_res2 r) (ck_Reject r) (ck_Retry r)
    (ck_res3 r) (ck_NumTkns r) (ck_RKey r) v (ck_OtherRMBs r) (ck_res4 r).
Definition set_ck_OtherRMBs (v : list RMBSpec) (r : ConfirmRKey) : ConfirmRKey :=
  mkConfirmRKey (ck_Base r) (ck_res1 r) (ck_Reply r) (ck_res2 r) (ck_Reject r) (ck_Retry r)
    (ck_res3 r) (ck_NumTkns r) (ck_RKey r) (ck_VAddr r) v (ck_res4 r).
Definition set_ck_res4 (v : N) (r : ConfirmRKey) : ConfirmRKey :=
  mkConfirmRKey (ck_Base r) (ck_res1 r) (ck_Reply r) (ck_res2 r) (ck_Reject r) (ck_Retry r)
    (ck_res3 r) (ck_NumTkns r) (ck_RKey r) (ck_VAddr r) (ck_OtherRMBs r) v.

(** [ConfirmRKeyCont] *)
Definition set_cc_Base (v : BaseMsg) (r : ConfirmRKeyCont) : ConfirmRKeyCont :=
  mkConfirmRKeyCont v (cc_res1 r) (cc_Reply r) (cc_res2 r) (cc_Reject r) (cc_res3 r)
    (cc_NumTkns r) (cc_OtherRMBs r) (cc_res4 r).
Definition set_cc_res1 (v : N) (r : ConfirmRKeyCont) : ConfirmRKeyCont :=
  mkConfirmRKeyCont (cc_Base r) v (cc_Reply r) (cc_res2 r) (cc_Reject r) (cc_res3 r)
    (cc_NumTkns r) (cc_OtherRMBs r) (cc_res4 r).
Definition set_cc_Reply (v : bool) (r : ConfirmRKeyCont) : ConfirmRKeyCont :=
  mkConfirmRKeyCont (cc_Base r) (cc_res1 r) v (cc_res2 r) (cc_Reject r) (cc_res3 r)
    (cc_NumTkns r) (cc_OtherRMBs r) (cc_res4 r).
Definition set_cc_res2 (v : N) (r : ConfirmRKeyCont) : ConfirmRKeyCont :=
  mkConfirmRKeyCont (cc_Base r) (cc_res1 r) (cc_Reply r) v (cc_Reject r) (cc_res3 r)
    (cc_NumTkns r) (cc_OtherRMBs r) (cc_res4 r).
Definition set_cc_Reject (v : bool) (r : ConfirmRKeyCont) : ConfirmRKeyCont :=
  mkConfirmRKeyCont (cc_Base r) (cc_res1 r) (cc_Reply r) (cc_res2 r) v (cc_res3 r) (cc_NumTkns r)
    (cc_OtherRMBs r) (cc_res4 r).
Definition set_cc_res3 (v : N) (r : ConfirmRKeyCont) : ConfirmRKeyCont :=
  mkConfirmRKeyCont (cc_Base r) (cc_res1 r) (cc_Reply r) (cc_res2 r) (cc_Reject r) v
    (cc_NumTkns r) (cc_OtherRMBs r) (cc_res4 r).
Definition set_cc_NumTkns (v : N) (r : ConfirmRKeyCont) : ConfirmRKeyCont :=
  mkConfirmRKeyCont (cc_Base r) (cc_res1 r) (cc_Reply r) (cc_res2 r) (cc_Reject r) (cc_res3 r) v
    (cc_OtherRMBs r) (cc_res4 r).
Definition set_cc_OtherRMBs (v : list RMBSpec) (r : ConfirmRKeyCont) : ConfirmRKeyCont :=
  mkConfirmRKeyCont (cc_Base r) (cc_res1 r) (cc_Reply r) (cc_res2 r) (cc_Reject r) (cc_res3 r)
    (cc_NumTkns r) v (cc_res4 r).
Definition set_cc_res4 (v : N) (r : ConfirmRKeyCont) : ConfirmRKeyCont :=
  mkConfirmRKeyCont (cc_Base r) (cc_res1 r) (cc_Reply r) (cc_res2 r) (cc_Reject r) (cc_res3 r)
    (cc_NumTkns r) (cc_OtherRMBs r) v.

(** [DeleteLink] *)
Definition set_dl_Base (v : BaseMsg) (r : DeleteLink) : DeleteLink :=
  mkDeleteLink v (dl_res1 r) (dl_Reply r) (dl_All r) (dl_Orderly r) (dl_res2 r) (dl_Link r)
    (dl_RsnCode r) (dl_res3 r).
Definition set_dl_res1 (v : N) (r : DeleteLink) : DeleteLink :=
  mkDeleteLink (dl_Base r) v (dl_Reply r) (dl_All r) (dl_Orderly r) (dl_res2 r) (dl_Link r)
    (dl_RsnCode r) (dl_res3 r).
Definition set_dl_Reply (v : bool) (r : DeleteLink) : DeleteLink :=
  mkDeleteLink (dl_Base r) (dl_res1 r) v (dl_All r) (dl_Orderly r) (dl_res2 r) (dl_Link r)
    (dl_RsnCode r) (dl_res3 r).
Definition set_dl_All (v : bool) (r : DeleteLink) : DeleteLink :=
  mkDeleteLink (dl_Base r) (dl_res1 r) (dl_Reply r) v (dl_Orderly r) (dl_res2 r) (dl_Link r)
    (dl_RsnCode r) (dl_res3 r).
Definition set_dl_Orderly (v : bool) (r : DeleteLink) : DeleteLink :=
  mkDeleteLink (dl_Base r) (dl_res1 r) (dl_Reply r) (dl_All r) v (dl_res2 r) (dl_Link r)
    (dl_RsnCode r) (dl_res3 r).
Definition set_dl_res2 (v : N) (r : DeleteLink) : DeleteLink :=
  mkDeleteLink (dl_Base r) (dl_res1 r) (dl_Reply r) (dl_All r) (dl_Orderly r) v (dl_Link r)
    (dl_RsnCode r) (dl_res3 r).
Definition set_dl_Link (v : N) (r : DeleteLink) : DeleteLink :=
  mkDeleteLink (dl_Base r) (dl_res1 r) (dl_Reply r) (dl_All r) (dl_Orderly r) (dl_res2 r) v
    (dl_RsnCode r) (dl_res3 r).
Definition set_dl_RsnCode (v : N) (r : DeleteLink) : DeleteLink :=
  mkDeleteLink (dl_Base r) (dl_res1 r) (dl_Reply r) (dl_All r) (dl_Orderly r) (dl_res2 r)
    (dl_Link r) v (dl_res3 r).
Definition set_dl_res3 (v : list byte) (r : DeleteLink) : DeleteLink :=
  mkDeleteLink (dl_Base r) (dl_res1 r) (dl_Reply r) (dl_All r) (dl_Orderly r) (dl_res2 r)
    (dl_Link r) (dl_RsnCode r) v.

(** [deleteRKey] *)
Definition set_dk_Base (v : BaseMsg) (r : deleteRKey) : deleteRKey :=
  mkDeleteRKey v (dk_res1 r) (dk_reply r) (dk_res2 r) (dk_reject r) (dk_res3 r) (dk_count r)
    (dk_errorMask r) (dk_res4 r) (dk_rkeys r) (dk_res5 r).
Definition set_dk_res1 (v : N) (r : deleteRKey) : deleteRKey :=
  mkDeleteRKey (dk_Base r) v (dk_reply r) (dk_res2 r) (dk_reject r) (dk_res3 r) (dk_count r)
    (dk_errorMask r) (dk_res4 r) (dk_rkeys r) (dk_res5 r).
Definition set_dk_reply (v : bool) (r : deleteRKey) : deleteRKey :=
  mkDeleteRKey (dk_Base r) (dk_res1 r) v (dk_res2 r) (dk_reject r) (dk_res3 r) (dk_count r)
    (dk_errorMask r) (dk_res4 r) (dk_rkeys r) (dk_res5 r).
Definition set_dk_res2 (v : N) (r : deleteRKey) : deleteRKey :=
  mkDeleteRKey (dk_Base r) (dk_res1 r) (dk_reply r) v (dk_reject r) (dk_res3 r) (dk_count r)
    (dk_errorMask r) (dk_res4 r) (dk_rkeys r) (dk_res5 r).
Definition set_dk_reject (v : bool) (r : deleteRKey) : deleteRKey :=
  mkDeleteRKey (dk_Base r) (dk_res1 r) (dk_reply r) (dk_res2 r) v (dk_res3 r) (dk_count r)
    (dk_errorMask r) (dk_res4 r) (dk_rkeys r) (dk_res5 r).
Definition set_dk_res3 (v : N) (r : deleteRKey) : deleteRKey :=
  mkDeleteRKey (dk_Base r) (dk_res1 r) (dk_reply r) (dk_res2 r) (dk_reject r) v (dk_count r)
    (dk_errorMask r) (dk_res4 r) (dk_rkeys r) (dk_res5 r).
Definition set_dk_count (v : N) (r : deleteRKey) : deleteRKey :=
  mkDeleteRKey (dk_Base r) (dk_res1 r) (dk_reply r) (dk_res2 r) (dk_reject r) (dk_res3 r) v
    (dk_errorMask r) (dk_res4 r) (dk_rkeys r) (dk_res5 r).
Definition set_dk_errorMask (v : N) (r : deleteRKey) : deleteRKey :=
  mkDeleteRKey (dk_Base r) (dk_res1 r) (dk_reply r) (dk_res2 r) (dk_reject r) (dk_res3 r)
    (dk_count r) v (dk_res4 r) (dk_rkeys r) (dk_res5 r).
Definition set_dk_res4 (v : list byte) (r : deleteRKey) : deleteRKey :=
  mkDeleteRKey (dk_Base r) (dk_res1 r) (dk_reply r) (dk_res2 r) (dk_reject r) (dk_res3 r)
    (dk_count r) (dk_errorMask r) v (dk_rkeys r) (dk_res5 r).
Definition set_dk_rkeys (v : list N) (r : deleteRKey) : deleteRKey :=
  mkDeleteRKey (dk_Base r) (dk_res1 r) (dk_reply r) (dk_res2 r) (dk_reject r) (dk_res3 r)
    (dk_count r) (dk_errorMask r) (dk_res4 r) v (dk_res5 r).
Definition set_dk_res5 (v : list byte) (r : deleteRKey) : deleteRKey :=
  mkDeleteRKey (dk_Base r) (dk_res1 r) (dk_reply r) (dk_res2 r) (dk_reject r) (dk_res3 r)
    (dk_count r) (dk_errorMask r) (dk_res4 r) (dk_rkeys r) v.

(** [TestLink] *)
Definition set_tl_Base (v : BaseMsg) (r : TestLink) : TestLink :=
  mkTestLink v (tl_res1 r) (tl_Reply r) (tl_res2 r) (tl_UserData r) (tl_res3 r).
Definition set_tl_res1 (v : N) (r : TestLink) : TestLink :=
  mkTestLink (tl_Base r) v (tl_Reply r) (tl_res2 r) (tl_UserData r) (tl_res3 r).
Definition set_tl_Reply (v : bool) (r : TestLink) : TestLink :=
  mkTestLink (tl_Base r) (tl_res1 r) v (tl_res2 r) (tl_UserData r) (tl_res3 r).
Definition set_tl_res2 (v : N) (r : TestLink) : TestLink :=
  mkTestLink (tl_Base r) (tl_res1 r) (tl_Reply r) v (tl_UserData r) (tl_res3 r).
Definition set_tl_UserData (v : list byte) (r : TestLink) : TestLink :=
  mkTestLink (tl_Base r) (tl_res1 r) (tl_Reply r) (tl_res2 r) v (tl_res3 r).
Definition set_tl_res3 (v : list byte) (r : TestLink) : TestLink :=
  mkTestLink (tl_Base r) (tl_res1 r) (tl_Reply r) (tl_res2 r) (tl_UserData r) v.

(** [BTH] *)
Definition set_bth_Raw (v : list byte) (r : BTH) : BTH :=
  mkBTH v (bth_Opcode r) (bth_SE r) (bth_M r) (bth_Pad r) (bth_TVer r) (bth_PKey r) (bth_FECN r)
    (bth_BECN r) (bth_res1 r) (bth_DestQP r) (bth_A r) (bth_res2 r) (bth_PSN r).
Definition set_bth_Opcode (v : N) (r : BTH) : BTH :=
  mkBTH (bth_Raw r) v (bth_SE r) (bth_M r) (bth_Pad r) (bth_TVer r) (bth_PKey r) (bth_FECN r)
    (bth_BECN r) (bth_res1 r) (bth_DestQP r) (bth_A r) (bth_res2 r) (bth_PSN r).
Definition set_bth_SE (v : bool) (r : BTH) : BTH :=
  mkBTH (bth_Raw r) (bth_Opcode r) v (bth_M r) (bth_Pad r) (bth_TVer r) (bth_PKey r) (bth_FECN r)
    (bth_BECN r) (bth_res1 r) (bth_DestQP r) (bth_A r) (bth_res2 r) (bth_PSN r).
Definition set_bth_M (v : bool) (r : BTH) : BTH :=
  mkBTH (bth_Raw r) (bth_Opcode r) (bth_SE r) v (bth_Pad r) (bth_TVer r) (bth_PKey r)
    (bth_FECN r) (bth_BECN r) (bth_res1 r) (bth_DestQP r) (bth_A r) (bth_res2 r) (bth_PSN r).
Definition set_bth_Pad (v : N) (r : BTH) : BTH :=
  mkBTH (bth_Raw r) (bth_Opcode r) (bth_SE r) (bth_M r) v (bth_TVer r) (bth_PKey r) (bth_FECN r)
    (bth_BECN r) (bth_res1 r) (bth_DestQP r) (bth_A r) (bth_res2 r) (bth_PSN r).
Definition set_bth_TVer (v : N) (r : BTH) : BTH :=
  mkBTH (bth_Raw r) (bth_Opcode r) (bth_SE r) (bth_M r) (bth_Pad r) v (bth_PKey r) (bth_FECN r)
    (bth_BECN r) (bth_res1 r) (bth_DestQP r) (bth_A r) (bth_res2 r) (bth_PSN r).
Definition set_bth_PKey (v : N) (r : BTH) : BTH :=
  mkBTH (bth_Raw r) (bth_Opcode r) (bth_SE r) (bth_M r) (bth_Pad r) (bth_TVer r) v (bth_FECN r)
    (bth_BECN r) (bth_res1 r) (bth_DestQP r) (bth_A r) (bth_res2 r) (bth_PSN r).
Definition set_bth_FECN (v : bool) (r : BTH) : BTH :=
  mkBTH (bth_Raw r) (bth_Opcode r) (bth_SE r) (bth_M r) (bth_Pad r) (bth_TVer r) (bth_PKey r) v
    (bth_BECN r) (bth_res1 r) (bth_DestQP r) (bth_A r) (bth_res2 r) (bth_PSN r).
Definition set_bth_BECN (v : bool) (r : BTH) : BTH :=
  mkBTH (bth_Raw r) (bth_Opcode r) (bth_SE r) (bth_M r) (bth_Pad r) (bth_TVer r) (bth_PKey r)
    (bth_FECN r) v (bth_res1 r) (bth_DestQP r) (bth_A r) (bth_res2 r) (bth_PSN r).
Definition set_bth_res1 (v : N) (r : BTH) : BTH :=
  mkBTH (bth_Raw r) (bth_Opcode r) (bth_SE r) (bth_M r) (bth_Pad r) (bth_TVer r) (bth_PKey r)
    (bth_FECN r) (bth_BECN r) v (bth_DestQP r) (bth_A r) (bth_res2 r) (bth_PSN r).
Definition set_bth_DestQP (v : N) (r : BTH) : BTH :=
  mkBTH (bth_Raw r) (bth_Opcode r) (bth_SE r) (bth_M r) (bth_Pad r) (bth_TVer r) (bth_PKey r)
    (bth_FECN r) (bth_BECN r) (bth_res1 r) v (bth_A r) (bth_res2 r) (bth_PSN r).
Definition set_bth_A (v : bool) (r : BTH) : BTH :=
  mkBTH (bth_Raw r) (bth_Opcode r) (bth_SE r) (bth_M r) (bth_Pad r) (bth_TVer r) (bth_PKey r)
    (bth_FECN r) (bth_BECN r) (bth_res1 r) (bth_DestQP r) v (bth_res2 r) (bth_PSN r).
Definition set_bth_res2 (v : N) (r : BTH) : BTH :=
  mkBTH (bth_Raw r) (bth_Opcode r) (bth_SE r) (bth_M r) (bth_Pad r) (bth_TVer r) (bth_PKey r)
    (bth_FECN r) (bth_BECN r) (bth_res1 r) (bth_DestQP r) (bth_A r) v (bth_PSN r).
Definition set_bth_PSN (v : N) (r : BTH) : BTH :=
  mkBTH (bth_Raw r) (bth_Opcode r) (bth_SE r) (bth_M r) (bth_Pad r) (bth_TVer r) (bth_PKey r)
    (bth_FECN r) (bth_BECN r) (bth_res1 r) (bth_DestQP r) (bth_A r) (bth_res2 r) v.
