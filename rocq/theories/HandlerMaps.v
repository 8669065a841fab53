(** * The command and data maps of pykickstart/handlers/*.py

    Written by tools/gen_classes.py.  [handlers] stands for the dictionaries built by
    handlers/control.py:26-50, keyed by version. *)

From Verif Require Import Version.
From Coq Require Import String List ZArith.
Import ListNotations.
Local Open Scope string_scope.

(** handlers/rhel3.py:29-76 (RHEL3Handler.commandMap) *)
Definition RHEL3_commands : list (string * string) := [
  ("auth", "FC3_Authconfig");
  ("authconfig", "FC3_Authconfig");
  ("autopart", "FC3_AutoPart");
  ("autostep", "FC3_AutoStep");
  ("bootloader", "FC3_Bootloader");
  ("cdrom", "FC3_Cdrom");
  ("clearpart", "FC3_ClearPart");
  ("cmdline", "FC3_DisplayMode");
  ("device", "FC3_Device");
  ("deviceprobe", "FC3_DeviceProbe");
  ("driverdisk", "FC3_DriverDisk");
  ("firewall", "FC3_Firewall");
  ("firstboot", "FC3_Firstboot");
  ("graphical", "FC3_DisplayMode");
  ("halt", "FC3_Reboot");
  ("harddrive", "FC3_HardDrive");
  ("ignoredisk", "FC3_IgnoreDisk");
  ("install", "FC3_Upgrade");
  ("interactive", "FC3_Interactive");
  ("keyboard", "FC3_Keyboard");
  ("lang", "FC3_Lang");
  ("langsupport", "FC3_LangSupport");
  ("lilo", "FC3_Lilo");
  ("lilocheck", "FC3_LiloCheck");
  ("logvol", "FC3_LogVol");
  ("method", "FC3_Method");
  ("monitor", "FC3_Monitor");
  ("mouse", "RHEL3_Mouse");
  ("network", "FC3_Network");
  ("nfs", "FC3_NFS");
  ("part", "FC3_Partition");
  ("partition", "FC3_Partition");
  ("poweroff", "FC3_Reboot");
  ("raid", "FC3_Raid");
  ("reboot", "FC3_Reboot");
  ("rootpw", "FC3_RootPw");
  ("shutdown", "FC3_Reboot");
  ("skipx", "FC3_SkipX");
  ("text", "FC3_DisplayMode");
  ("timezone", "FC3_Timezone");
  ("upgrade", "FC3_Upgrade");
  ("url", "FC3_Url");
  ("vnc", "FC3_Vnc");
  ("volgroup", "FC3_VolGroup");
  ("xconfig", "FC3_XConfig");
  ("zerombr", "FC3_ZeroMbr")].

(** handlers/rhel3.py:78-86 (RHEL3Handler.dataMap) *)
Definition RHEL3_data : list (string * string) := [
  ("DriverDiskData", "FC3_DriverDiskData");
  ("LogVolData", "FC3_LogVolData");
  ("NetworkData", "RHEL4_NetworkData");
  ("PartData", "FC3_PartData");
  ("RaidData", "FC3_RaidData");
  ("VolGroupData", "FC3_VolGroupData");
  ("ZFCPData", "FC3_ZFCPData")].

(** handlers/fc3.py:29-78 (FC3Handler.commandMap) *)
Definition FC3_commands : list (string * string) := [
  ("auth", "FC3_Authconfig");
  ("authconfig", "FC3_Authconfig");
  ("autopart", "FC3_AutoPart");
  ("autostep", "FC3_AutoStep");
  ("bootloader", "FC3_Bootloader");
  ("cdrom", "FC3_Cdrom");
  ("clearpart", "FC3_ClearPart");
  ("cmdline", "FC3_DisplayMode");
  ("device", "FC3_Device");
  ("deviceprobe", "FC3_DeviceProbe");
  ("driverdisk", "FC3_DriverDisk");
  ("firewall", "FC3_Firewall");
  ("firstboot", "FC3_Firstboot");
  ("graphical", "FC3_DisplayMode");
  ("halt", "FC3_Reboot");
  ("harddrive", "FC3_HardDrive");
  ("ignoredisk", "FC3_IgnoreDisk");
  ("install", "FC3_Upgrade");
  ("interactive", "FC3_Interactive");
  ("keyboard", "FC3_Keyboard");
  ("lang", "FC3_Lang");
  ("langsupport", "FC3_LangSupport");
  ("lilo", "FC3_Lilo");
  ("lilocheck", "FC3_LiloCheck");
  ("logvol", "FC3_LogVol");
  ("method", "FC3_Method");
  ("monitor", "FC3_Monitor");
  ("mouse", "FC3_Mouse");
  ("network", "FC3_Network");
  ("nfs", "FC3_NFS");
  ("part", "FC3_Partition");
  ("partition", "FC3_Partition");
  ("poweroff", "FC3_Reboot");
  ("raid", "FC3_Raid");
  ("reboot", "FC3_Reboot");
  ("rootpw", "FC3_RootPw");
  ("selinux", "FC3_SELinux");
  ("shutdown", "FC3_Reboot");
  ("skipx", "FC3_SkipX");
  ("text", "FC3_DisplayMode");
  ("timezone", "FC3_Timezone");
  ("upgrade", "FC3_Upgrade");
  ("url", "FC3_Url");
  ("vnc", "FC3_Vnc");
  ("volgroup", "FC3_VolGroup");
  ("xconfig", "FC3_XConfig");
  ("zerombr", "FC3_ZeroMbr");
  ("zfcp", "FC3_ZFCP")].

(** handlers/fc3.py:80-88 (FC3Handler.dataMap) *)
Definition FC3_data : list (string * string) := [
  ("DriverDiskData", "FC3_DriverDiskData");
  ("LogVolData", "FC3_LogVolData");
  ("NetworkData", "FC3_NetworkData");
  ("PartData", "FC3_PartData");
  ("RaidData", "FC3_RaidData");
  ("VolGroupData", "FC3_VolGroupData");
  ("ZFCPData", "FC3_ZFCPData")].

(** handlers/rhel4.py:29-78 (RHEL4Handler.commandMap) *)
Definition RHEL4_commands : list (string * string) := [
  ("auth", "FC3_Authconfig");
  ("authconfig", "FC3_Authconfig");
  ("autopart", "FC3_AutoPart");
  ("autostep", "FC3_AutoStep");
  ("bootloader", "FC3_Bootloader");
  ("cdrom", "FC3_Cdrom");
  ("clearpart", "FC3_ClearPart");
  ("cmdline", "FC3_DisplayMode");
  ("device", "FC3_Device");
  ("deviceprobe", "FC3_DeviceProbe");
  ("driverdisk", "FC4_DriverDisk");
  ("firewall", "FC3_Firewall");
  ("firstboot", "FC3_Firstboot");
  ("graphical", "FC3_DisplayMode");
  ("halt", "FC3_Reboot");
  ("harddrive", "FC3_HardDrive");
  ("ignoredisk", "F8_IgnoreDisk");
  ("install", "FC3_Upgrade");
  ("interactive", "FC3_Interactive");
  ("keyboard", "FC3_Keyboard");
  ("lang", "FC3_Lang");
  ("langsupport", "FC3_LangSupport");
  ("lilo", "FC3_Lilo");
  ("lilocheck", "FC3_LiloCheck");
  ("logvol", "FC3_LogVol");
  ("method", "FC3_Method");
  ("monitor", "FC3_Monitor");
  ("mouse", "FC3_Mouse");
  ("network", "RHEL4_Network");
  ("nfs", "FC3_NFS");
  ("part", "FC3_Partition");
  ("partition", "FC3_Partition");
  ("poweroff", "FC3_Reboot");
  ("raid", "FC3_Raid");
  ("reboot", "FC3_Reboot");
  ("rootpw", "FC3_RootPw");
  ("selinux", "FC3_SELinux");
  ("shutdown", "FC3_Reboot");
  ("skipx", "FC3_SkipX");
  ("text", "FC3_DisplayMode");
  ("timezone", "FC3_Timezone");
  ("upgrade", "FC3_Upgrade");
  ("url", "FC3_Url");
  ("vnc", "FC3_Vnc");
  ("volgroup", "FC3_VolGroup");
  ("xconfig", "FC3_XConfig");
  ("zerombr", "FC3_ZeroMbr");
  ("zfcp", "FC3_ZFCP")].

(** handlers/rhel4.py:80-88 (RHEL4Handler.dataMap) *)
Definition RHEL4_data : list (string * string) := [
  ("DriverDiskData", "FC4_DriverDiskData");
  ("LogVolData", "FC3_LogVolData");
  ("NetworkData", "RHEL4_NetworkData");
  ("PartData", "FC3_PartData");
  ("RaidData", "FC3_RaidData");
  ("VolGroupData", "FC3_VolGroupData");
  ("ZFCPData", "FC3_ZFCPData")].

(** handlers/fc4.py:29-79 (FC4Handler.commandMap) *)
Definition FC4_commands : list (string * string) := [
  ("auth", "FC3_Authconfig");
  ("authconfig", "FC3_Authconfig");
  ("autopart", "FC3_AutoPart");
  ("autostep", "FC3_AutoStep");
  ("bootloader", "FC4_Bootloader");
  ("cdrom", "FC3_Cdrom");
  ("clearpart", "FC3_ClearPart");
  ("cmdline", "FC3_DisplayMode");
  ("device", "FC3_Device");
  ("deviceprobe", "FC3_DeviceProbe");
  ("driverdisk", "FC4_DriverDisk");
  ("firewall", "FC3_Firewall");
  ("firstboot", "FC3_Firstboot");
  ("graphical", "FC3_DisplayMode");
  ("halt", "FC3_Reboot");
  ("harddrive", "FC3_HardDrive");
  ("ignoredisk", "FC3_IgnoreDisk");
  ("install", "FC3_Upgrade");
  ("interactive", "FC3_Interactive");
  ("keyboard", "FC3_Keyboard");
  ("lang", "FC3_Lang");
  ("langsupport", "FC3_LangSupport");
  ("lilo", "FC4_Lilo");
  ("lilocheck", "FC4_LiloCheck");
  ("logvol", "FC4_LogVol");
  ("mediacheck", "FC4_MediaCheck");
  ("method", "FC3_Method");
  ("monitor", "FC3_Monitor");
  ("mouse", "FC3_Mouse");
  ("network", "FC4_Network");
  ("nfs", "FC3_NFS");
  ("part", "FC4_Partition");
  ("partition", "FC4_Partition");
  ("poweroff", "FC3_Reboot");
  ("raid", "FC4_Raid");
  ("reboot", "FC3_Reboot");
  ("rootpw", "FC3_RootPw");
  ("selinux", "FC3_SELinux");
  ("shutdown", "FC3_Reboot");
  ("skipx", "FC3_SkipX");
  ("text", "FC3_DisplayMode");
  ("timezone", "FC3_Timezone");
  ("upgrade", "FC3_Upgrade");
  ("url", "FC3_Url");
  ("vnc", "FC3_Vnc");
  ("volgroup", "FC3_VolGroup");
  ("xconfig", "FC3_XConfig");
  ("zerombr", "FC3_ZeroMbr");
  ("zfcp", "FC3_ZFCP")].

(** handlers/fc4.py:81-89 (FC4Handler.dataMap) *)
Definition FC4_data : list (string * string) := [
  ("DriverDiskData", "FC4_DriverDiskData");
  ("LogVolData", "FC4_LogVolData");
  ("NetworkData", "FC4_NetworkData");
  ("PartData", "FC4_PartData");
  ("RaidData", "FC4_RaidData");
  ("VolGroupData", "FC3_VolGroupData");
  ("ZFCPData", "FC3_ZFCPData")].

(** handlers/fc5.py:29-77 (FC5Handler.commandMap) *)
Definition FC5_commands : list (string * string) := [
  ("auth", "FC3_Authconfig");
  ("authconfig", "FC3_Authconfig");
  ("autopart", "FC3_AutoPart");
  ("autostep", "FC3_AutoStep");
  ("bootloader", "FC4_Bootloader");
  ("cdrom", "FC3_Cdrom");
  ("clearpart", "FC3_ClearPart");
  ("cmdline", "FC3_DisplayMode");
  ("device", "FC3_Device");
  ("deviceprobe", "FC3_DeviceProbe");
  ("driverdisk", "FC4_DriverDisk");
  ("firewall", "FC3_Firewall");
  ("firstboot", "FC3_Firstboot");
  ("graphical", "FC3_DisplayMode");
  ("halt", "FC3_Reboot");
  ("harddrive", "FC3_HardDrive");
  ("ignoredisk", "FC3_IgnoreDisk");
  ("install", "FC3_Upgrade");
  ("interactive", "FC3_Interactive");
  ("keyboard", "FC3_Keyboard");
  ("lang", "FC3_Lang");
  ("langsupport", "FC5_LangSupport");
  ("logvol", "FC4_LogVol");
  ("mediacheck", "FC4_MediaCheck");
  ("method", "FC3_Method");
  ("monitor", "FC3_Monitor");
  ("mouse", "FC3_Mouse");
  ("network", "FC4_Network");
  ("nfs", "FC3_NFS");
  ("part", "FC4_Partition");
  ("partition", "FC4_Partition");
  ("poweroff", "FC3_Reboot");
  ("raid", "FC5_Raid");
  ("reboot", "FC3_Reboot");
  ("rootpw", "FC3_RootPw");
  ("selinux", "FC3_SELinux");
  ("shutdown", "FC3_Reboot");
  ("skipx", "FC3_SkipX");
  ("text", "FC3_DisplayMode");
  ("timezone", "FC3_Timezone");
  ("upgrade", "FC3_Upgrade");
  ("url", "FC3_Url");
  ("vnc", "FC3_Vnc");
  ("volgroup", "FC3_VolGroup");
  ("xconfig", "FC3_XConfig");
  ("zerombr", "FC3_ZeroMbr");
  ("zfcp", "FC3_ZFCP")].

(** handlers/fc5.py:79-87 (FC5Handler.dataMap) *)
Definition FC5_data : list (string * string) := [
  ("DriverDiskData", "FC4_DriverDiskData");
  ("LogVolData", "FC4_LogVolData");
  ("NetworkData", "FC4_NetworkData");
  ("PartData", "FC4_PartData");
  ("RaidData", "FC5_RaidData");
  ("VolGroupData", "FC3_VolGroupData");
  ("ZFCPData", "FC3_ZFCPData")].

(** handlers/fc6.py:29-85 (FC6Handler.commandMap) *)
Definition FC6_commands : list (string * string) := [
  ("auth", "FC3_Authconfig");
  ("authconfig", "FC3_Authconfig");
  ("autopart", "FC3_AutoPart");
  ("autostep", "FC3_AutoStep");
  ("bootloader", "FC4_Bootloader");
  ("cdrom", "FC3_Cdrom");
  ("clearpart", "FC3_ClearPart");
  ("cmdline", "FC3_DisplayMode");
  ("device", "FC3_Device");
  ("deviceprobe", "FC3_DeviceProbe");
  ("dmraid", "FC6_DmRaid");
  ("driverdisk", "FC4_DriverDisk");
  ("firewall", "FC3_Firewall");
  ("firstboot", "FC3_Firstboot");
  ("graphical", "FC3_DisplayMode");
  ("halt", "FC6_Reboot");
  ("harddrive", "FC3_HardDrive");
  ("ignoredisk", "FC3_IgnoreDisk");
  ("install", "FC3_Upgrade");
  ("interactive", "FC3_Interactive");
  ("iscsi", "FC6_Iscsi");
  ("iscsiname", "FC6_IscsiName");
  ("keyboard", "FC3_Keyboard");
  ("lang", "FC3_Lang");
  ("langsupport", "FC5_LangSupport");
  ("logging", "FC6_Logging");
  ("logvol", "FC4_LogVol");
  ("mediacheck", "FC4_MediaCheck");
  ("method", "FC6_Method");
  ("monitor", "FC6_Monitor");
  ("mouse", "FC3_Mouse");
  ("multipath", "FC6_MultiPath");
  ("network", "FC6_Network");
  ("nfs", "FC6_NFS");
  ("part", "FC4_Partition");
  ("partition", "FC4_Partition");
  ("poweroff", "FC6_Reboot");
  ("raid", "FC5_Raid");
  ("reboot", "FC6_Reboot");
  ("repo", "FC6_Repo");
  ("rootpw", "FC3_RootPw");
  ("selinux", "FC3_SELinux");
  ("services", "FC6_Services");
  ("shutdown", "FC6_Reboot");
  ("skipx", "FC3_SkipX");
  ("text", "FC3_DisplayMode");
  ("timezone", "FC6_Timezone");
  ("upgrade", "FC3_Upgrade");
  ("user", "FC6_User");
  ("url", "FC3_Url");
  ("vnc", "FC6_Vnc");
  ("volgroup", "FC3_VolGroup");
  ("xconfig", "FC6_XConfig");
  ("zerombr", "FC3_ZeroMbr");
  ("zfcp", "FC3_ZFCP")].

(** handlers/fc6.py:87-100 (FC6Handler.dataMap) *)
Definition FC6_data : list (string * string) := [
  ("DriverDiskData", "FC4_DriverDiskData");
  ("DmRaidData", "FC6_DmRaidData");
  ("IscsiData", "FC6_IscsiData");
  ("LogVolData", "FC4_LogVolData");
  ("MultiPathData", "FC6_MultiPathData");
  ("NetworkData", "FC6_NetworkData");
  ("PartData", "FC4_PartData");
  ("RaidData", "FC5_RaidData");
  ("RepoData", "FC6_RepoData");
  ("UserData", "FC6_UserData");
  ("VolGroupData", "FC3_VolGroupData");
  ("ZFCPData", "FC3_ZFCPData")].

(** handlers/rhel5.py:29-86 (RHEL5Handler.commandMap) *)
Definition RHEL5_commands : list (string * string) := [
  ("auth", "FC3_Authconfig");
  ("authconfig", "FC3_Authconfig");
  ("autopart", "F9_AutoPart");
  ("autostep", "FC3_AutoStep");
  ("bootloader", "RHEL5_Bootloader");
  ("cdrom", "FC3_Cdrom");
  ("clearpart", "FC3_ClearPart");
  ("cmdline", "FC3_DisplayMode");
  ("device", "FC3_Device");
  ("deviceprobe", "FC3_DeviceProbe");
  ("dmraid", "FC6_DmRaid");
  ("driverdisk", "F12_DriverDisk");
  ("firewall", "FC3_Firewall");
  ("firstboot", "FC3_Firstboot");
  ("graphical", "FC3_DisplayMode");
  ("halt", "FC6_Reboot");
  ("harddrive", "FC3_HardDrive");
  ("ignoredisk", "F8_IgnoreDisk");
  ("install", "FC3_Upgrade");
  ("interactive", "FC3_Interactive");
  ("iscsi", "FC6_Iscsi");
  ("iscsiname", "FC6_IscsiName");
  ("key", "RHEL5_Key");
  ("keyboard", "FC3_Keyboard");
  ("lang", "FC3_Lang");
  ("langsupport", "FC5_LangSupport");
  ("logging", "FC6_Logging");
  ("logvol", "RHEL5_LogVol");
  ("mediacheck", "FC4_MediaCheck");
  ("method", "FC6_Method");
  ("monitor", "FC6_Monitor");
  ("mouse", "FC3_Mouse");
  ("multipath", "FC6_MultiPath");
  ("network", "RHEL5_Network");
  ("nfs", "FC6_NFS");
  ("part", "RHEL5_Partition");
  ("partition", "RHEL5_Partition");
  ("poweroff", "FC6_Reboot");
  ("raid", "RHEL5_Raid");
  ("reboot", "FC6_Reboot");
  ("repo", "FC6_Repo");
  ("rootpw", "FC3_RootPw");
  ("services", "FC6_Services");
  ("selinux", "FC3_SELinux");
  ("shutdown", "FC6_Reboot");
  ("skipx", "FC3_SkipX");
  ("text", "FC3_DisplayMode");
  ("timezone", "FC6_Timezone");
  ("upgrade", "FC3_Upgrade");
  ("user", "FC6_User");
  ("url", "FC3_Url");
  ("vnc", "FC6_Vnc");
  ("volgroup", "FC3_VolGroup");
  ("xconfig", "FC6_XConfig");
  ("zerombr", "FC3_ZeroMbr");
  ("zfcp", "FC3_ZFCP")].

(** handlers/rhel5.py:88-101 (RHEL5Handler.dataMap) *)
Definition RHEL5_data : list (string * string) := [
  ("DriverDiskData", "F12_DriverDiskData");
  ("DmRaidData", "FC6_DmRaidData");
  ("IscsiData", "FC6_IscsiData");
  ("LogVolData", "RHEL5_LogVolData");
  ("MultiPathData", "FC6_MultiPathData");
  ("NetworkData", "FC6_NetworkData");
  ("PartData", "RHEL5_PartData");
  ("RaidData", "RHEL5_RaidData");
  ("RepoData", "FC6_RepoData");
  ("UserData", "FC6_UserData");
  ("VolGroupData", "FC3_VolGroupData");
  ("ZFCPData", "FC3_ZFCPData")].

(** handlers/f7.py:29-86 (F7Handler.commandMap) *)
Definition F7_commands : list (string * string) := [
  ("auth", "FC3_Authconfig");
  ("authconfig", "FC3_Authconfig");
  ("autopart", "FC3_AutoPart");
  ("autostep", "FC3_AutoStep");
  ("bootloader", "FC4_Bootloader");
  ("cdrom", "FC3_Cdrom");
  ("clearpart", "FC3_ClearPart");
  ("cmdline", "FC3_DisplayMode");
  ("device", "FC3_Device");
  ("deviceprobe", "FC3_DeviceProbe");
  ("dmraid", "FC6_DmRaid");
  ("driverdisk", "FC4_DriverDisk");
  ("firewall", "FC3_Firewall");
  ("firstboot", "FC3_Firstboot");
  ("graphical", "FC3_DisplayMode");
  ("halt", "FC6_Reboot");
  ("harddrive", "FC3_HardDrive");
  ("ignoredisk", "FC3_IgnoreDisk");
  ("install", "FC3_Upgrade");
  ("interactive", "FC3_Interactive");
  ("iscsi", "FC6_Iscsi");
  ("iscsiname", "FC6_IscsiName");
  ("keyboard", "FC3_Keyboard");
  ("lang", "FC3_Lang");
  ("langsupport", "F7_LangSupport");
  ("logging", "FC6_Logging");
  ("logvol", "FC4_LogVol");
  ("mediacheck", "FC4_MediaCheck");
  ("method", "FC6_Method");
  ("monitor", "FC6_Monitor");
  ("mouse", "F7_Mouse");
  ("multipath", "FC6_MultiPath");
  ("network", "FC6_Network");
  ("nfs", "FC6_NFS");
  ("part", "FC4_Partition");
  ("partition", "FC4_Partition");
  ("poweroff", "FC6_Reboot");
  ("raid", "F7_Raid");
  ("reboot", "FC6_Reboot");
  ("repo", "FC6_Repo");
  ("rootpw", "FC3_RootPw");
  ("selinux", "FC3_SELinux");
  ("services", "FC6_Services");
  ("shutdown", "FC6_Reboot");
  ("skipx", "FC3_SkipX");
  ("text", "FC3_DisplayMode");
  ("timezone", "FC6_Timezone");
  ("updates", "F7_Updates");
  ("upgrade", "FC3_Upgrade");
  ("url", "FC3_Url");
  ("user", "FC6_User");
  ("vnc", "FC6_Vnc");
  ("volgroup", "FC3_VolGroup");
  ("xconfig", "FC6_XConfig");
  ("zerombr", "FC3_ZeroMbr");
  ("zfcp", "FC3_ZFCP")].

(** handlers/f7.py:88-101 (F7Handler.dataMap) *)
Definition F7_data : list (string * string) := [
  ("DriverDiskData", "FC4_DriverDiskData");
  ("DmRaidData", "FC6_DmRaidData");
  ("IscsiData", "FC6_IscsiData");
  ("LogVolData", "FC4_LogVolData");
  ("MultiPathData", "FC6_MultiPathData");
  ("NetworkData", "FC6_NetworkData");
  ("PartData", "FC4_PartData");
  ("RaidData", "F7_RaidData");
  ("RepoData", "FC6_RepoData");
  ("UserData", "FC6_UserData");
  ("VolGroupData", "FC3_VolGroupData");
  ("ZFCPData", "FC3_ZFCPData")].

(** handlers/f8.py:29-84 (F8Handler.commandMap) *)
Definition F8_commands : list (string * string) := [
  ("auth", "FC3_Authconfig");
  ("authconfig", "FC3_Authconfig");
  ("autopart", "FC3_AutoPart");
  ("autostep", "FC3_AutoStep");
  ("bootloader", "F8_Bootloader");
  ("cdrom", "FC3_Cdrom");
  ("clearpart", "FC3_ClearPart");
  ("cmdline", "FC3_DisplayMode");
  ("device", "F8_Device");
  ("deviceprobe", "FC3_DeviceProbe");
  ("dmraid", "FC6_DmRaid");
  ("driverdisk", "FC4_DriverDisk");
  ("firewall", "FC3_Firewall");
  ("firstboot", "FC3_Firstboot");
  ("graphical", "FC3_DisplayMode");
  ("halt", "FC6_Reboot");
  ("harddrive", "FC3_HardDrive");
  ("ignoredisk", "F8_IgnoreDisk");
  ("install", "FC3_Upgrade");
  ("interactive", "FC3_Interactive");
  ("iscsi", "FC6_Iscsi");
  ("iscsiname", "FC6_IscsiName");
  ("keyboard", "FC3_Keyboard");
  ("lang", "FC3_Lang");
  ("logging", "FC6_Logging");
  ("logvol", "FC4_LogVol");
  ("mediacheck", "FC4_MediaCheck");
  ("method", "FC6_Method");
  ("monitor", "FC6_Monitor");
  ("multipath", "FC6_MultiPath");
  ("network", "F8_Network");
  ("nfs", "FC6_NFS");
  ("part", "FC4_Partition");
  ("partition", "FC4_Partition");
  ("poweroff", "FC6_Reboot");
  ("raid", "F7_Raid");
  ("reboot", "FC6_Reboot");
  ("repo", "F8_Repo");
  ("rootpw", "F8_RootPw");
  ("selinux", "FC3_SELinux");
  ("services", "FC6_Services");
  ("shutdown", "FC6_Reboot");
  ("skipx", "FC3_SkipX");
  ("text", "FC3_DisplayMode");
  ("timezone", "FC6_Timezone");
  ("updates", "F7_Updates");
  ("upgrade", "FC3_Upgrade");
  ("url", "FC3_Url");
  ("user", "F8_User");
  ("vnc", "FC6_Vnc");
  ("volgroup", "FC3_VolGroup");
  ("xconfig", "FC6_XConfig");
  ("zerombr", "FC3_ZeroMbr");
  ("zfcp", "FC3_ZFCP")].

(** handlers/f8.py:86-100 (F8Handler.dataMap) *)
Definition F8_data : list (string * string) := [
  ("DriverDiskData", "FC4_DriverDiskData");
  ("DeviceData", "F8_DeviceData");
  ("DmRaidData", "FC6_DmRaidData");
  ("IscsiData", "FC6_IscsiData");
  ("LogVolData", "FC4_LogVolData");
  ("MultiPathData", "FC6_MultiPathData");
  ("NetworkData", "F8_NetworkData");
  ("PartData", "FC4_PartData");
  ("RaidData", "F7_RaidData");
  ("RepoData", "F8_RepoData");
  ("UserData", "F8_UserData");
  ("VolGroupData", "FC3_VolGroupData");
  ("ZFCPData", "FC3_ZFCPData")].

(** handlers/f9.py:29-84 (F9Handler.commandMap) *)
Definition F9_commands : list (string * string) := [
  ("auth", "FC3_Authconfig");
  ("authconfig", "FC3_Authconfig");
  ("autopart", "F9_AutoPart");
  ("autostep", "FC3_AutoStep");
  ("bootloader", "F8_Bootloader");
  ("cdrom", "FC3_Cdrom");
  ("clearpart", "FC3_ClearPart");
  ("cmdline", "FC3_DisplayMode");
  ("device", "F8_Device");
  ("deviceprobe", "FC3_DeviceProbe");
  ("dmraid", "FC6_DmRaid");
  ("driverdisk", "FC4_DriverDisk");
  ("firewall", "F9_Firewall");
  ("firstboot", "FC3_Firstboot");
  ("graphical", "FC3_DisplayMode");
  ("halt", "FC6_Reboot");
  ("harddrive", "FC3_HardDrive");
  ("ignoredisk", "F8_IgnoreDisk");
  ("install", "FC3_Upgrade");
  ("interactive", "FC3_Interactive");
  ("iscsi", "FC6_Iscsi");
  ("iscsiname", "FC6_IscsiName");
  ("keyboard", "FC3_Keyboard");
  ("lang", "FC3_Lang");
  ("logging", "FC6_Logging");
  ("logvol", "F9_LogVol");
  ("mediacheck", "FC4_MediaCheck");
  ("method", "FC6_Method");
  ("monitor", "FC6_Monitor");
  ("multipath", "FC6_MultiPath");
  ("network", "F9_Network");
  ("nfs", "FC6_NFS");
  ("part", "F9_Partition");
  ("partition", "F9_Partition");
  ("poweroff", "FC6_Reboot");
  ("raid", "F9_Raid");
  ("reboot", "FC6_Reboot");
  ("repo", "F8_Repo");
  ("rootpw", "F8_RootPw");
  ("selinux", "FC3_SELinux");
  ("services", "FC6_Services");
  ("shutdown", "FC6_Reboot");
  ("skipx", "FC3_SkipX");
  ("text", "FC3_DisplayMode");
  ("timezone", "FC6_Timezone");
  ("updates", "F7_Updates");
  ("upgrade", "FC3_Upgrade");
  ("url", "FC3_Url");
  ("user", "F8_User");
  ("vnc", "F9_Vnc");
  ("volgroup", "FC3_VolGroup");
  ("xconfig", "F9_XConfig");
  ("zerombr", "F9_ZeroMbr");
  ("zfcp", "FC3_ZFCP")].

(** handlers/f9.py:86-100 (F9Handler.dataMap) *)
Definition F9_data : list (string * string) := [
  ("DriverDiskData", "FC4_DriverDiskData");
  ("DeviceData", "F8_DeviceData");
  ("DmRaidData", "FC6_DmRaidData");
  ("IscsiData", "FC6_IscsiData");
  ("LogVolData", "F9_LogVolData");
  ("MultiPathData", "FC6_MultiPathData");
  ("NetworkData", "F8_NetworkData");
  ("PartData", "F9_PartData");
  ("RaidData", "F9_RaidData");
  ("RepoData", "F8_RepoData");
  ("UserData", "F8_UserData");
  ("VolGroupData", "FC3_VolGroupData");
  ("ZFCPData", "FC3_ZFCPData")].

(** handlers/f10.py:29-85 (F10Handler.commandMap) *)
Definition F10_commands : list (string * string) := [
  ("auth", "FC3_Authconfig");
  ("authconfig", "FC3_Authconfig");
  ("autopart", "F9_AutoPart");
  ("autostep", "FC3_AutoStep");
  ("bootloader", "F8_Bootloader");
  ("cdrom", "FC3_Cdrom");
  ("clearpart", "FC3_ClearPart");
  ("cmdline", "FC3_DisplayMode");
  ("device", "F8_Device");
  ("deviceprobe", "FC3_DeviceProbe");
  ("dmraid", "FC6_DmRaid");
  ("driverdisk", "FC4_DriverDisk");
  ("firewall", "F10_Firewall");
  ("firstboot", "FC3_Firstboot");
  ("graphical", "FC3_DisplayMode");
  ("halt", "FC6_Reboot");
  ("harddrive", "FC3_HardDrive");
  ("ignoredisk", "F8_IgnoreDisk");
  ("install", "FC3_Upgrade");
  ("interactive", "FC3_Interactive");
  ("iscsi", "F10_Iscsi");
  ("iscsiname", "FC6_IscsiName");
  ("keyboard", "FC3_Keyboard");
  ("lang", "FC3_Lang");
  ("logging", "FC6_Logging");
  ("logvol", "F9_LogVol");
  ("mediacheck", "FC4_MediaCheck");
  ("method", "FC6_Method");
  ("monitor", "F10_Monitor");
  ("multipath", "FC6_MultiPath");
  ("network", "F9_Network");
  ("nfs", "FC6_NFS");
  ("part", "F9_Partition");
  ("partition", "F9_Partition");
  ("poweroff", "FC6_Reboot");
  ("raid", "F9_Raid");
  ("reboot", "FC6_Reboot");
  ("repo", "F8_Repo");
  ("rescue", "F10_Rescue");
  ("rootpw", "F8_RootPw");
  ("selinux", "FC3_SELinux");
  ("services", "FC6_Services");
  ("shutdown", "FC6_Reboot");
  ("skipx", "FC3_SkipX");
  ("text", "FC3_DisplayMode");
  ("timezone", "FC6_Timezone");
  ("updates", "F7_Updates");
  ("upgrade", "FC3_Upgrade");
  ("url", "FC3_Url");
  ("user", "F8_User");
  ("vnc", "F9_Vnc");
  ("volgroup", "FC3_VolGroup");
  ("xconfig", "F10_XConfig");
  ("zerombr", "F9_ZeroMbr");
  ("zfcp", "FC3_ZFCP")].

(** handlers/f10.py:87-101 (F10Handler.dataMap) *)
Definition F10_data : list (string * string) := [
  ("DriverDiskData", "FC4_DriverDiskData");
  ("DeviceData", "F8_DeviceData");
  ("DmRaidData", "FC6_DmRaidData");
  ("IscsiData", "F10_IscsiData");
  ("LogVolData", "F9_LogVolData");
  ("MultiPathData", "FC6_MultiPathData");
  ("NetworkData", "F8_NetworkData");
  ("PartData", "F9_PartData");
  ("RaidData", "F9_RaidData");
  ("RepoData", "F8_RepoData");
  ("UserData", "F8_UserData");
  ("VolGroupData", "FC3_VolGroupData");
  ("ZFCPData", "FC3_ZFCPData")].

(** handlers/f11.py:29-85 (F11Handler.commandMap) *)
Definition F11_commands : list (string * string) := [
  ("auth", "FC3_Authconfig");
  ("authconfig", "FC3_Authconfig");
  ("autopart", "F9_AutoPart");
  ("autostep", "FC3_AutoStep");
  ("bootloader", "F8_Bootloader");
  ("cdrom", "FC3_Cdrom");
  ("clearpart", "FC3_ClearPart");
  ("cmdline", "FC3_DisplayMode");
  ("device", "F8_Device");
  ("deviceprobe", "FC3_DeviceProbe");
  ("dmraid", "FC6_DmRaid");
  ("driverdisk", "FC4_DriverDisk");
  ("firewall", "F10_Firewall");
  ("firstboot", "FC3_Firstboot");
  ("graphical", "FC3_DisplayMode");
  ("halt", "FC6_Reboot");
  ("harddrive", "FC3_HardDrive");
  ("ignoredisk", "F8_IgnoreDisk");
  ("install", "F11_Upgrade");
  ("interactive", "FC3_Interactive");
  ("iscsi", "F10_Iscsi");
  ("iscsiname", "FC6_IscsiName");
  ("keyboard", "FC3_Keyboard");
  ("lang", "FC3_Lang");
  ("logging", "FC6_Logging");
  ("logvol", "F9_LogVol");
  ("mediacheck", "FC4_MediaCheck");
  ("method", "FC6_Method");
  ("monitor", "F10_Monitor");
  ("multipath", "FC6_MultiPath");
  ("network", "F9_Network");
  ("nfs", "FC6_NFS");
  ("part", "F11_Partition");
  ("partition", "F11_Partition");
  ("poweroff", "FC6_Reboot");
  ("raid", "F9_Raid");
  ("reboot", "FC6_Reboot");
  ("repo", "F11_Repo");
  ("rescue", "F10_Rescue");
  ("rootpw", "F8_RootPw");
  ("selinux", "FC3_SELinux");
  ("services", "FC6_Services");
  ("shutdown", "FC6_Reboot");
  ("skipx", "FC3_SkipX");
  ("text", "FC3_DisplayMode");
  ("timezone", "FC6_Timezone");
  ("updates", "F7_Updates");
  ("upgrade", "F11_Upgrade");
  ("url", "FC3_Url");
  ("user", "F8_User");
  ("vnc", "F9_Vnc");
  ("volgroup", "FC3_VolGroup");
  ("xconfig", "F10_XConfig");
  ("zerombr", "F9_ZeroMbr");
  ("zfcp", "FC3_ZFCP")].

(** handlers/f11.py:87-101 (F11Handler.dataMap) *)
Definition F11_data : list (string * string) := [
  ("DriverDiskData", "FC4_DriverDiskData");
  ("DeviceData", "F8_DeviceData");
  ("DmRaidData", "FC6_DmRaidData");
  ("IscsiData", "F10_IscsiData");
  ("LogVolData", "F9_LogVolData");
  ("MultiPathData", "FC6_MultiPathData");
  ("NetworkData", "F8_NetworkData");
  ("PartData", "F11_PartData");
  ("RaidData", "F9_RaidData");
  ("RepoData", "F11_RepoData");
  ("UserData", "F8_UserData");
  ("VolGroupData", "FC3_VolGroupData");
  ("ZFCPData", "FC3_ZFCPData")].

(** handlers/f12.py:29-87 (F12Handler.commandMap) *)
Definition F12_commands : list (string * string) := [
  ("auth", "FC3_Authconfig");
  ("authconfig", "FC3_Authconfig");
  ("autopart", "F12_AutoPart");
  ("autostep", "FC3_AutoStep");
  ("bootloader", "F12_Bootloader");
  ("cdrom", "FC3_Cdrom");
  ("clearpart", "FC3_ClearPart");
  ("cmdline", "FC3_DisplayMode");
  ("device", "F8_Device");
  ("deviceprobe", "FC3_DeviceProbe");
  ("dmraid", "FC6_DmRaid");
  ("driverdisk", "F12_DriverDisk");
  ("fcoe", "F12_Fcoe");
  ("firewall", "F10_Firewall");
  ("firstboot", "FC3_Firstboot");
  ("graphical", "FC3_DisplayMode");
  ("group", "F12_Group");
  ("halt", "FC6_Reboot");
  ("harddrive", "FC3_HardDrive");
  ("ignoredisk", "F8_IgnoreDisk");
  ("install", "F11_Upgrade");
  ("interactive", "FC3_Interactive");
  ("iscsi", "F10_Iscsi");
  ("iscsiname", "FC6_IscsiName");
  ("keyboard", "FC3_Keyboard");
  ("lang", "FC3_Lang");
  ("logging", "FC6_Logging");
  ("logvol", "F12_LogVol");
  ("mediacheck", "FC4_MediaCheck");
  ("method", "FC6_Method");
  ("monitor", "F10_Monitor");
  ("multipath", "FC6_MultiPath");
  ("network", "F9_Network");
  ("nfs", "FC6_NFS");
  ("part", "F12_Partition");
  ("partition", "F12_Partition");
  ("poweroff", "FC6_Reboot");
  ("raid", "F12_Raid");
  ("reboot", "FC6_Reboot");
  ("repo", "F11_Repo");
  ("rescue", "F10_Rescue");
  ("rootpw", "F8_RootPw");
  ("selinux", "FC3_SELinux");
  ("services", "FC6_Services");
  ("shutdown", "FC6_Reboot");
  ("skipx", "FC3_SkipX");
  ("text", "FC3_DisplayMode");
  ("timezone", "FC6_Timezone");
  ("updates", "F7_Updates");
  ("upgrade", "F11_Upgrade");
  ("url", "FC3_Url");
  ("user", "F12_User");
  ("vnc", "F9_Vnc");
  ("volgroup", "FC3_VolGroup");
  ("xconfig", "F10_XConfig");
  ("zerombr", "F9_ZeroMbr");
  ("zfcp", "F12_ZFCP")].

(** handlers/f12.py:89-105 (F12Handler.dataMap) *)
Definition F12_data : list (string * string) := [
  ("DriverDiskData", "F12_DriverDiskData");
  ("DeviceData", "F8_DeviceData");
  ("DmRaidData", "FC6_DmRaidData");
  ("FcoeData", "F12_FcoeData");
  ("GroupData", "F12_GroupData");
  ("IscsiData", "F10_IscsiData");
  ("LogVolData", "F12_LogVolData");
  ("MultiPathData", "FC6_MultiPathData");
  ("NetworkData", "F8_NetworkData");
  ("PartData", "F12_PartData");
  ("RaidData", "F12_RaidData");
  ("RepoData", "F11_RepoData");
  ("UserData", "F12_UserData");
  ("VolGroupData", "FC3_VolGroupData");
  ("ZFCPData", "F12_ZFCPData")].

(** handlers/f13.py:29-88 (F13Handler.commandMap) *)
Definition F13_commands : list (string * string) := [
  ("auth", "FC3_Authconfig");
  ("authconfig", "FC3_Authconfig");
  ("autopart", "F12_AutoPart");
  ("autostep", "FC3_AutoStep");
  ("bootloader", "F12_Bootloader");
  ("cdrom", "FC3_Cdrom");
  ("clearpart", "FC3_ClearPart");
  ("cmdline", "FC3_DisplayMode");
  ("device", "F8_Device");
  ("deviceprobe", "FC3_DeviceProbe");
  ("dmraid", "FC6_DmRaid");
  ("driverdisk", "F12_DriverDisk");
  ("fcoe", "F13_Fcoe");
  ("firewall", "F10_Firewall");
  ("firstboot", "FC3_Firstboot");
  ("graphical", "FC3_DisplayMode");
  ("group", "F12_Group");
  ("halt", "FC6_Reboot");
  ("harddrive", "FC3_HardDrive");
  ("ignoredisk", "F8_IgnoreDisk");
  ("install", "F11_Upgrade");
  ("interactive", "FC3_Interactive");
  ("iscsi", "F10_Iscsi");
  ("iscsiname", "FC6_IscsiName");
  ("keyboard", "FC3_Keyboard");
  ("lang", "FC3_Lang");
  ("logging", "FC6_Logging");
  ("logvol", "F12_LogVol");
  ("mediacheck", "FC4_MediaCheck");
  ("method", "F13_Method");
  ("monitor", "F10_Monitor");
  ("multipath", "FC6_MultiPath");
  ("network", "F9_Network");
  ("nfs", "FC6_NFS");
  ("part", "F12_Partition");
  ("partition", "F12_Partition");
  ("poweroff", "FC6_Reboot");
  ("raid", "F13_Raid");
  ("reboot", "FC6_Reboot");
  ("repo", "F13_Repo");
  ("rescue", "F10_Rescue");
  ("rootpw", "F8_RootPw");
  ("selinux", "FC3_SELinux");
  ("services", "FC6_Services");
  ("shutdown", "FC6_Reboot");
  ("skipx", "FC3_SkipX");
  ("sshpw", "F13_SshPw");
  ("text", "FC3_DisplayMode");
  ("timezone", "FC6_Timezone");
  ("updates", "F7_Updates");
  ("upgrade", "F11_Upgrade");
  ("url", "F13_Url");
  ("user", "F12_User");
  ("vnc", "F9_Vnc");
  ("volgroup", "FC3_VolGroup");
  ("xconfig", "F10_XConfig");
  ("zerombr", "F9_ZeroMbr");
  ("zfcp", "F12_ZFCP")].

(** handlers/f13.py:90-107 (F13Handler.dataMap) *)
Definition F13_data : list (string * string) := [
  ("DriverDiskData", "F12_DriverDiskData");
  ("DeviceData", "F8_DeviceData");
  ("DmRaidData", "FC6_DmRaidData");
  ("FcoeData", "F13_FcoeData");
  ("GroupData", "F12_GroupData");
  ("IscsiData", "F10_IscsiData");
  ("LogVolData", "F12_LogVolData");
  ("MultiPathData", "FC6_MultiPathData");
  ("NetworkData", "F8_NetworkData");
  ("PartData", "F12_PartData");
  ("RaidData", "F13_RaidData");
  ("RepoData", "F13_RepoData");
  ("SshPwData", "F13_SshPwData");
  ("UserData", "F12_UserData");
  ("VolGroupData", "FC3_VolGroupData");
  ("ZFCPData", "F12_ZFCPData")].

(** handlers/rhel6.py:29-90 (RHEL6Handler.commandMap) *)
Definition RHEL6_commands : list (string * string) := [
  ("auth", "FC3_Authconfig");
  ("authconfig", "FC3_Authconfig");
  ("autopart", "RHEL6_AutoPart");
  ("autostep", "FC3_AutoStep");
  ("bootloader", "RHEL6_Bootloader");
  ("cdrom", "FC3_Cdrom");
  ("clearpart", "FC3_ClearPart");
  ("cmdline", "FC3_DisplayMode");
  ("device", "F8_Device");
  ("deviceprobe", "FC3_DeviceProbe");
  ("dmraid", "FC6_DmRaid");
  ("driverdisk", "F12_DriverDisk");
  ("fcoe", "F13_Fcoe");
  ("firewall", "F10_Firewall");
  ("firstboot", "FC3_Firstboot");
  ("graphical", "FC3_DisplayMode");
  ("group", "F12_Group");
  ("halt", "FC6_Reboot");
  ("harddrive", "FC3_HardDrive");
  ("ignoredisk", "RHEL6_IgnoreDisk");
  ("install", "F11_Upgrade");
  ("interactive", "FC3_Interactive");
  ("iscsi", "RHEL6_Iscsi");
  ("iscsiname", "FC6_IscsiName");
  ("key", "RHEL5_Key");
  ("keyboard", "FC3_Keyboard");
  ("lang", "FC3_Lang");
  ("logging", "FC6_Logging");
  ("logvol", "RHEL6_LogVol");
  ("mediacheck", "FC4_MediaCheck");
  ("method", "RHEL6_Method");
  ("monitor", "F10_Monitor");
  ("multipath", "FC6_MultiPath");
  ("network", "RHEL6_Network");
  ("nfs", "FC6_NFS");
  ("part", "RHEL6_Partition");
  ("partition", "RHEL6_Partition");
  ("poweroff", "FC6_Reboot");
  ("raid", "RHEL6_Raid");
  ("reboot", "FC6_Reboot");
  ("repo", "RHEL6_Repo");
  ("rescue", "F10_Rescue");
  ("rootpw", "F8_RootPw");
  ("selinux", "FC3_SELinux");
  ("services", "FC6_Services");
  ("shutdown", "FC6_Reboot");
  ("skipx", "FC3_SkipX");
  ("sshpw", "F13_SshPw");
  ("text", "FC3_DisplayMode");
  ("timezone", "FC6_Timezone");
  ("unsupported_hardware", "RHEL6_UnsupportedHardware");
  ("updates", "F7_Updates");
  ("upgrade", "F11_Upgrade");
  ("url", "RHEL6_Url");
  ("user", "F12_User");
  ("vnc", "F9_Vnc");
  ("volgroup", "F16_VolGroup");
  ("xconfig", "F10_XConfig");
  ("zerombr", "F9_ZeroMbr");
  ("zfcp", "F12_ZFCP")].

(** handlers/rhel6.py:92-109 (RHEL6Handler.dataMap) *)
Definition RHEL6_data : list (string * string) := [
  ("DriverDiskData", "F12_DriverDiskData");
  ("DeviceData", "F8_DeviceData");
  ("DmRaidData", "FC6_DmRaidData");
  ("FcoeData", "F13_FcoeData");
  ("GroupData", "F12_GroupData");
  ("IscsiData", "RHEL6_IscsiData");
  ("LogVolData", "RHEL6_LogVolData");
  ("MultiPathData", "FC6_MultiPathData");
  ("NetworkData", "RHEL6_NetworkData");
  ("PartData", "RHEL6_PartData");
  ("RaidData", "RHEL6_RaidData");
  ("RepoData", "RHEL6_RepoData");
  ("SshPwData", "F13_SshPwData");
  ("UserData", "F12_UserData");
  ("VolGroupData", "F16_VolGroupData");
  ("ZFCPData", "F12_ZFCPData")].

(** handlers/f14.py:29-88 (F14Handler.commandMap) *)
Definition F14_commands : list (string * string) := [
  ("auth", "FC3_Authconfig");
  ("authconfig", "FC3_Authconfig");
  ("autopart", "F12_AutoPart");
  ("autostep", "FC3_AutoStep");
  ("bootloader", "F14_Bootloader");
  ("cdrom", "FC3_Cdrom");
  ("clearpart", "FC3_ClearPart");
  ("cmdline", "FC3_DisplayMode");
  ("device", "F8_Device");
  ("deviceprobe", "FC3_DeviceProbe");
  ("dmraid", "FC6_DmRaid");
  ("driverdisk", "F14_DriverDisk");
  ("fcoe", "F13_Fcoe");
  ("firewall", "F14_Firewall");
  ("firstboot", "FC3_Firstboot");
  ("graphical", "FC3_DisplayMode");
  ("group", "F12_Group");
  ("halt", "FC6_Reboot");
  ("harddrive", "FC3_HardDrive");
  ("ignoredisk", "F14_IgnoreDisk");
  ("install", "F11_Upgrade");
  ("interactive", "F14_Interactive");
  ("iscsi", "F10_Iscsi");
  ("iscsiname", "FC6_IscsiName");
  ("keyboard", "FC3_Keyboard");
  ("lang", "FC3_Lang");
  ("logging", "FC6_Logging");
  ("logvol", "F14_LogVol");
  ("mediacheck", "FC4_MediaCheck");
  ("method", "F14_Method");
  ("monitor", "F10_Monitor");
  ("multipath", "FC6_MultiPath");
  ("network", "F9_Network");
  ("nfs", "FC6_NFS");
  ("part", "F14_Partition");
  ("partition", "F14_Partition");
  ("poweroff", "FC6_Reboot");
  ("raid", "F14_Raid");
  ("reboot", "FC6_Reboot");
  ("repo", "F14_Repo");
  ("rescue", "F10_Rescue");
  ("rootpw", "F8_RootPw");
  ("selinux", "FC3_SELinux");
  ("services", "FC6_Services");
  ("shutdown", "FC6_Reboot");
  ("skipx", "FC3_SkipX");
  ("sshpw", "F13_SshPw");
  ("text", "FC3_DisplayMode");
  ("timezone", "FC6_Timezone");
  ("updates", "F7_Updates");
  ("upgrade", "F11_Upgrade");
  ("url", "F14_Url");
  ("user", "F12_User");
  ("vnc", "F9_Vnc");
  ("volgroup", "FC3_VolGroup");
  ("xconfig", "F14_XConfig");
  ("zerombr", "F9_ZeroMbr");
  ("zfcp", "F14_ZFCP")].

(** handlers/f14.py:90-107 (F14Handler.dataMap) *)
Definition F14_data : list (string * string) := [
  ("DriverDiskData", "F14_DriverDiskData");
  ("DeviceData", "F8_DeviceData");
  ("DmRaidData", "FC6_DmRaidData");
  ("FcoeData", "F13_FcoeData");
  ("GroupData", "F12_GroupData");
  ("IscsiData", "F10_IscsiData");
  ("LogVolData", "F14_LogVolData");
  ("MultiPathData", "FC6_MultiPathData");
  ("NetworkData", "F8_NetworkData");
  ("PartData", "F14_PartData");
  ("RaidData", "F14_RaidData");
  ("RepoData", "F14_RepoData");
  ("SshPwData", "F13_SshPwData");
  ("UserData", "F12_UserData");
  ("VolGroupData", "FC3_VolGroupData");
  ("ZFCPData", "F14_ZFCPData")].

(** handlers/f15.py:29-88 (F15Handler.commandMap) *)
Definition F15_commands : list (string * string) := [
  ("auth", "FC3_Authconfig");
  ("authconfig", "FC3_Authconfig");
  ("autopart", "F12_AutoPart");
  ("autostep", "FC3_AutoStep");
  ("bootloader", "F15_Bootloader");
  ("cdrom", "FC3_Cdrom");
  ("clearpart", "FC3_ClearPart");
  ("cmdline", "FC3_DisplayMode");
  ("device", "F8_Device");
  ("deviceprobe", "FC3_DeviceProbe");
  ("dmraid", "FC6_DmRaid");
  ("driverdisk", "F14_DriverDisk");
  ("fcoe", "F13_Fcoe");
  ("firewall", "F14_Firewall");
  ("firstboot", "FC3_Firstboot");
  ("graphical", "FC3_DisplayMode");
  ("group", "F12_Group");
  ("halt", "FC6_Reboot");
  ("harddrive", "FC3_HardDrive");
  ("ignoredisk", "F14_IgnoreDisk");
  ("install", "F11_Upgrade");
  ("interactive", "F15_Interactive");
  ("iscsi", "F10_Iscsi");
  ("iscsiname", "FC6_IscsiName");
  ("keyboard", "FC3_Keyboard");
  ("lang", "FC3_Lang");
  ("logging", "FC6_Logging");
  ("logvol", "F15_LogVol");
  ("mediacheck", "FC4_MediaCheck");
  ("method", "F14_Method");
  ("monitor", "F10_Monitor");
  ("multipath", "FC6_MultiPath");
  ("network", "F9_Network");
  ("nfs", "FC6_NFS");
  ("part", "F14_Partition");
  ("partition", "F14_Partition");
  ("poweroff", "FC6_Reboot");
  ("raid", "F15_Raid");
  ("reboot", "FC6_Reboot");
  ("repo", "F15_Repo");
  ("rescue", "F10_Rescue");
  ("rootpw", "F8_RootPw");
  ("selinux", "FC3_SELinux");
  ("services", "FC6_Services");
  ("shutdown", "FC6_Reboot");
  ("skipx", "FC3_SkipX");
  ("sshpw", "F13_SshPw");
  ("text", "FC3_DisplayMode");
  ("timezone", "FC6_Timezone");
  ("updates", "F7_Updates");
  ("upgrade", "F11_Upgrade");
  ("url", "F14_Url");
  ("user", "F12_User");
  ("vnc", "F9_Vnc");
  ("volgroup", "FC3_VolGroup");
  ("xconfig", "F14_XConfig");
  ("zerombr", "F9_ZeroMbr");
  ("zfcp", "F14_ZFCP")].

(** handlers/f15.py:90-107 (F15Handler.dataMap) *)
Definition F15_data : list (string * string) := [
  ("DriverDiskData", "F14_DriverDiskData");
  ("DeviceData", "F8_DeviceData");
  ("DmRaidData", "FC6_DmRaidData");
  ("FcoeData", "F13_FcoeData");
  ("GroupData", "F12_GroupData");
  ("IscsiData", "F10_IscsiData");
  ("LogVolData", "F15_LogVolData");
  ("MultiPathData", "FC6_MultiPathData");
  ("NetworkData", "F8_NetworkData");
  ("PartData", "F14_PartData");
  ("RaidData", "F15_RaidData");
  ("RepoData", "F15_RepoData");
  ("SshPwData", "F13_SshPwData");
  ("UserData", "F12_UserData");
  ("VolGroupData", "FC3_VolGroupData");
  ("ZFCPData", "F14_ZFCPData")].

(** handlers/f16.py:29-87 (F16Handler.commandMap) *)
Definition F16_commands : list (string * string) := [
  ("auth", "FC3_Authconfig");
  ("authconfig", "FC3_Authconfig");
  ("autopart", "F16_AutoPart");
  ("autostep", "FC3_AutoStep");
  ("bootloader", "F15_Bootloader");
  ("cdrom", "FC3_Cdrom");
  ("clearpart", "FC3_ClearPart");
  ("cmdline", "FC3_DisplayMode");
  ("device", "F8_Device");
  ("deviceprobe", "FC3_DeviceProbe");
  ("dmraid", "FC6_DmRaid");
  ("driverdisk", "F14_DriverDisk");
  ("fcoe", "F13_Fcoe");
  ("firewall", "F14_Firewall");
  ("firstboot", "FC3_Firstboot");
  ("graphical", "FC3_DisplayMode");
  ("group", "F12_Group");
  ("halt", "FC6_Reboot");
  ("harddrive", "FC3_HardDrive");
  ("ignoredisk", "F14_IgnoreDisk");
  ("install", "F11_Upgrade");
  ("iscsi", "F10_Iscsi");
  ("iscsiname", "FC6_IscsiName");
  ("keyboard", "FC3_Keyboard");
  ("lang", "FC3_Lang");
  ("logging", "FC6_Logging");
  ("logvol", "F15_LogVol");
  ("mediacheck", "FC4_MediaCheck");
  ("method", "F14_Method");
  ("monitor", "F10_Monitor");
  ("multipath", "FC6_MultiPath");
  ("network", "F16_Network");
  ("nfs", "FC6_NFS");
  ("part", "F14_Partition");
  ("partition", "F14_Partition");
  ("poweroff", "FC6_Reboot");
  ("raid", "F15_Raid");
  ("reboot", "FC6_Reboot");
  ("repo", "F15_Repo");
  ("rescue", "F10_Rescue");
  ("rootpw", "F8_RootPw");
  ("selinux", "FC3_SELinux");
  ("services", "FC6_Services");
  ("shutdown", "FC6_Reboot");
  ("skipx", "FC3_SkipX");
  ("sshpw", "F13_SshPw");
  ("text", "FC3_DisplayMode");
  ("timezone", "FC6_Timezone");
  ("updates", "F7_Updates");
  ("upgrade", "F11_Upgrade");
  ("url", "F14_Url");
  ("user", "F12_User");
  ("vnc", "F9_Vnc");
  ("volgroup", "F16_VolGroup");
  ("xconfig", "F14_XConfig");
  ("zerombr", "F9_ZeroMbr");
  ("zfcp", "F14_ZFCP")].

(** handlers/f16.py:89-106 (F16Handler.dataMap) *)
Definition F16_data : list (string * string) := [
  ("DriverDiskData", "F14_DriverDiskData");
  ("DeviceData", "F8_DeviceData");
  ("DmRaidData", "FC6_DmRaidData");
  ("FcoeData", "F13_FcoeData");
  ("GroupData", "F12_GroupData");
  ("IscsiData", "F10_IscsiData");
  ("LogVolData", "F17_LogVolData");
  ("MultiPathData", "FC6_MultiPathData");
  ("NetworkData", "F16_NetworkData");
  ("PartData", "F17_PartData");
  ("RaidData", "F15_RaidData");
  ("RepoData", "F15_RepoData");
  ("SshPwData", "F13_SshPwData");
  ("UserData", "F12_UserData");
  ("VolGroupData", "F16_VolGroupData");
  ("ZFCPData", "F14_ZFCPData")].

(** handlers/f17.py:29-88 (F17Handler.commandMap) *)
Definition F17_commands : list (string * string) := [
  ("auth", "FC3_Authconfig");
  ("authconfig", "FC3_Authconfig");
  ("autopart", "F17_AutoPart");
  ("autostep", "FC3_AutoStep");
  ("bootloader", "F17_Bootloader");
  ("btrfs", "F17_BTRFS");
  ("cdrom", "FC3_Cdrom");
  ("clearpart", "F17_ClearPart");
  ("cmdline", "FC3_DisplayMode");
  ("device", "F8_Device");
  ("deviceprobe", "FC3_DeviceProbe");
  ("dmraid", "FC6_DmRaid");
  ("driverdisk", "F14_DriverDisk");
  ("fcoe", "F13_Fcoe");
  ("firewall", "F14_Firewall");
  ("firstboot", "FC3_Firstboot");
  ("graphical", "FC3_DisplayMode");
  ("group", "F12_Group");
  ("halt", "FC6_Reboot");
  ("harddrive", "FC3_HardDrive");
  ("ignoredisk", "F14_IgnoreDisk");
  ("install", "F11_Upgrade");
  ("iscsi", "F17_Iscsi");
  ("iscsiname", "FC6_IscsiName");
  ("keyboard", "FC3_Keyboard");
  ("lang", "FC3_Lang");
  ("logging", "FC6_Logging");
  ("logvol", "F17_LogVol");
  ("mediacheck", "FC4_MediaCheck");
  ("method", "F14_Method");
  ("monitor", "F10_Monitor");
  ("multipath", "FC6_MultiPath");
  ("network", "F16_Network");
  ("nfs", "FC6_NFS");
  ("part", "F17_Partition");
  ("partition", "F17_Partition");
  ("poweroff", "FC6_Reboot");
  ("raid", "F15_Raid");
  ("reboot", "FC6_Reboot");
  ("repo", "F15_Repo");
  ("rescue", "F10_Rescue");
  ("rootpw", "F8_RootPw");
  ("selinux", "FC3_SELinux");
  ("services", "FC6_Services");
  ("shutdown", "FC6_Reboot");
  ("skipx", "FC3_SkipX");
  ("sshpw", "F13_SshPw");
  ("text", "FC3_DisplayMode");
  ("timezone", "FC6_Timezone");
  ("updates", "F7_Updates");
  ("upgrade", "F11_Upgrade");
  ("url", "F14_Url");
  ("user", "F12_User");
  ("vnc", "F9_Vnc");
  ("volgroup", "F16_VolGroup");
  ("xconfig", "F14_XConfig");
  ("zerombr", "F9_ZeroMbr");
  ("zfcp", "F14_ZFCP")].

(** handlers/f17.py:90-108 (F17Handler.dataMap) *)
Definition F17_data : list (string * string) := [
  ("BTRFSData", "F17_BTRFSData");
  ("DriverDiskData", "F14_DriverDiskData");
  ("DeviceData", "F8_DeviceData");
  ("DmRaidData", "FC6_DmRaidData");
  ("FcoeData", "F13_FcoeData");
  ("GroupData", "F12_GroupData");
  ("IscsiData", "F17_IscsiData");
  ("LogVolData", "F17_LogVolData");
  ("MultiPathData", "FC6_MultiPathData");
  ("NetworkData", "F16_NetworkData");
  ("PartData", "F17_PartData");
  ("RaidData", "F15_RaidData");
  ("RepoData", "F15_RepoData");
  ("SshPwData", "F13_SshPwData");
  ("UserData", "F12_UserData");
  ("VolGroupData", "F16_VolGroupData");
  ("ZFCPData", "F14_ZFCPData")].

(** handlers/f18.py:29-88 (F18Handler.commandMap) *)
Definition F18_commands : list (string * string) := [
  ("auth", "FC3_Authconfig");
  ("authconfig", "FC3_Authconfig");
  ("autopart", "F18_AutoPart");
  ("autostep", "FC3_AutoStep");
  ("bootloader", "F18_Bootloader");
  ("btrfs", "F17_BTRFS");
  ("cdrom", "FC3_Cdrom");
  ("clearpart", "F17_ClearPart");
  ("cmdline", "FC3_DisplayMode");
  ("device", "F8_Device");
  ("deviceprobe", "FC3_DeviceProbe");
  ("dmraid", "FC6_DmRaid");
  ("driverdisk", "F14_DriverDisk");
  ("fcoe", "F13_Fcoe");
  ("firewall", "F14_Firewall");
  ("firstboot", "FC3_Firstboot");
  ("graphical", "FC3_DisplayMode");
  ("group", "F12_Group");
  ("halt", "F18_Reboot");
  ("harddrive", "FC3_HardDrive");
  ("ignoredisk", "F14_IgnoreDisk");
  ("install", "F11_Upgrade");
  ("iscsi", "F17_Iscsi");
  ("iscsiname", "FC6_IscsiName");
  ("keyboard", "F18_Keyboard");
  ("lang", "FC3_Lang");
  ("logging", "FC6_Logging");
  ("logvol", "F18_LogVol");
  ("mediacheck", "FC4_MediaCheck");
  ("method", "F18_Method");
  ("monitor", "F18_Monitor");
  ("multipath", "FC6_MultiPath");
  ("network", "F18_Network");
  ("nfs", "FC6_NFS");
  ("part", "F18_Partition");
  ("partition", "F18_Partition");
  ("poweroff", "F18_Reboot");
  ("raid", "F18_Raid");
  ("reboot", "F18_Reboot");
  ("repo", "F15_Repo");
  ("rescue", "F10_Rescue");
  ("rootpw", "F18_RootPw");
  ("selinux", "FC3_SELinux");
  ("services", "FC6_Services");
  ("shutdown", "F18_Reboot");
  ("skipx", "FC3_SkipX");
  ("sshpw", "F13_SshPw");
  ("text", "FC3_DisplayMode");
  ("timezone", "F18_Timezone");
  ("updates", "F7_Updates");
  ("upgrade", "F11_Upgrade");
  ("url", "F18_Url");
  ("user", "F12_User");
  ("vnc", "F9_Vnc");
  ("volgroup", "F16_VolGroup");
  ("xconfig", "F14_XConfig");
  ("zerombr", "F9_ZeroMbr");
  ("zfcp", "F14_ZFCP")].

(** handlers/f18.py:90-108 (F18Handler.dataMap) *)
Definition F18_data : list (string * string) := [
  ("BTRFSData", "F17_BTRFSData");
  ("DriverDiskData", "F14_DriverDiskData");
  ("DeviceData", "F8_DeviceData");
  ("DmRaidData", "FC6_DmRaidData");
  ("FcoeData", "RHEL7_FcoeData");
  ("GroupData", "F12_GroupData");
  ("IscsiData", "F17_IscsiData");
  ("LogVolData", "F18_LogVolData");
  ("MultiPathData", "FC6_MultiPathData");
  ("NetworkData", "F16_NetworkData");
  ("PartData", "F18_PartData");
  ("RaidData", "F18_RaidData");
  ("RepoData", "F15_RepoData");
  ("SshPwData", "F13_SshPwData");
  ("UserData", "F12_UserData");
  ("VolGroupData", "F16_VolGroupData");
  ("ZFCPData", "F14_ZFCPData")].

(** handlers/f19.py:29-89 (F19Handler.commandMap) *)
Definition F19_commands : list (string * string) := [
  ("auth", "FC3_Authconfig");
  ("authconfig", "FC3_Authconfig");
  ("autopart", "F18_AutoPart");
  ("autostep", "FC3_AutoStep");
  ("bootloader", "F19_Bootloader");
  ("btrfs", "F17_BTRFS");
  ("cdrom", "FC3_Cdrom");
  ("clearpart", "F17_ClearPart");
  ("cmdline", "FC3_DisplayMode");
  ("device", "F8_Device");
  ("deviceprobe", "FC3_DeviceProbe");
  ("dmraid", "FC6_DmRaid");
  ("driverdisk", "F14_DriverDisk");
  ("fcoe", "F13_Fcoe");
  ("firewall", "F14_Firewall");
  ("firstboot", "FC3_Firstboot");
  ("graphical", "FC3_DisplayMode");
  ("group", "F12_Group");
  ("halt", "F18_Reboot");
  ("harddrive", "FC3_HardDrive");
  ("ignoredisk", "F14_IgnoreDisk");
  ("install", "F11_Upgrade");
  ("iscsi", "F17_Iscsi");
  ("iscsiname", "FC6_IscsiName");
  ("keyboard", "F18_Keyboard");
  ("lang", "F19_Lang");
  ("liveimg", "F19_Liveimg");
  ("logging", "FC6_Logging");
  ("logvol", "F18_LogVol");
  ("mediacheck", "FC4_MediaCheck");
  ("method", "F19_Method");
  ("multipath", "FC6_MultiPath");
  ("network", "F19_Network");
  ("nfs", "FC6_NFS");
  ("part", "F18_Partition");
  ("partition", "F18_Partition");
  ("poweroff", "F18_Reboot");
  ("raid", "F19_Raid");
  ("realm", "F19_Realm");
  ("reboot", "F18_Reboot");
  ("repo", "F15_Repo");
  ("rescue", "F10_Rescue");
  ("rootpw", "F18_RootPw");
  ("selinux", "FC3_SELinux");
  ("services", "FC6_Services");
  ("shutdown", "F18_Reboot");
  ("skipx", "FC3_SkipX");
  ("sshpw", "F13_SshPw");
  ("text", "FC3_DisplayMode");
  ("timezone", "F18_Timezone");
  ("updates", "F7_Updates");
  ("upgrade", "F11_Upgrade");
  ("url", "F18_Url");
  ("user", "F19_User");
  ("vnc", "F9_Vnc");
  ("volgroup", "F16_VolGroup");
  ("xconfig", "F14_XConfig");
  ("zerombr", "F9_ZeroMbr");
  ("zfcp", "F14_ZFCP")].

(** handlers/f19.py:91-109 (F19Handler.dataMap) *)
Definition F19_data : list (string * string) := [
  ("BTRFSData", "F17_BTRFSData");
  ("DriverDiskData", "F14_DriverDiskData");
  ("DeviceData", "F8_DeviceData");
  ("DmRaidData", "FC6_DmRaidData");
  ("FcoeData", "F13_FcoeData");
  ("GroupData", "F12_GroupData");
  ("IscsiData", "F17_IscsiData");
  ("LogVolData", "F20_LogVolData");
  ("MultiPathData", "FC6_MultiPathData");
  ("NetworkData", "F19_NetworkData");
  ("PartData", "F18_PartData");
  ("RaidData", "F18_RaidData");
  ("RepoData", "F15_RepoData");
  ("SshPwData", "F13_SshPwData");
  ("UserData", "F19_UserData");
  ("VolGroupData", "F16_VolGroupData");
  ("ZFCPData", "F14_ZFCPData")].

(** handlers/f20.py:29-90 (F20Handler.commandMap) *)
Definition F20_commands : list (string * string) := [
  ("auth", "FC3_Authconfig");
  ("authconfig", "FC3_Authconfig");
  ("autopart", "F20_AutoPart");
  ("autostep", "FC3_AutoStep");
  ("bootloader", "F19_Bootloader");
  ("btrfs", "F17_BTRFS");
  ("cdrom", "FC3_Cdrom");
  ("clearpart", "F17_ClearPart");
  ("cmdline", "FC3_DisplayMode");
  ("device", "F8_Device");
  ("deviceprobe", "FC3_DeviceProbe");
  ("dmraid", "FC6_DmRaid");
  ("driverdisk", "F14_DriverDisk");
  ("eula", "F20_Eula");
  ("fcoe", "F13_Fcoe");
  ("firewall", "F20_Firewall");
  ("firstboot", "FC3_Firstboot");
  ("graphical", "FC3_DisplayMode");
  ("group", "F12_Group");
  ("halt", "F18_Reboot");
  ("harddrive", "FC3_HardDrive");
  ("ignoredisk", "F14_IgnoreDisk");
  ("install", "F20_Install");
  ("iscsi", "F17_Iscsi");
  ("iscsiname", "FC6_IscsiName");
  ("keyboard", "F18_Keyboard");
  ("lang", "F19_Lang");
  ("liveimg", "F19_Liveimg");
  ("logging", "FC6_Logging");
  ("logvol", "F20_LogVol");
  ("mediacheck", "FC4_MediaCheck");
  ("method", "F19_Method");
  ("multipath", "FC6_MultiPath");
  ("network", "F20_Network");
  ("nfs", "FC6_NFS");
  ("part", "F20_Partition");
  ("partition", "F20_Partition");
  ("poweroff", "F18_Reboot");
  ("raid", "F20_Raid");
  ("realm", "F19_Realm");
  ("reboot", "F18_Reboot");
  ("repo", "F15_Repo");
  ("rescue", "F10_Rescue");
  ("rootpw", "F18_RootPw");
  ("selinux", "FC3_SELinux");
  ("services", "FC6_Services");
  ("shutdown", "F18_Reboot");
  ("skipx", "FC3_SkipX");
  ("sshpw", "F13_SshPw");
  ("text", "FC3_DisplayMode");
  ("timezone", "F18_Timezone");
  ("updates", "F7_Updates");
  ("upgrade", "F20_Upgrade");
  ("url", "F18_Url");
  ("user", "F19_User");
  ("vnc", "F9_Vnc");
  ("volgroup", "F16_VolGroup");
  ("xconfig", "F14_XConfig");
  ("zerombr", "F9_ZeroMbr");
  ("zfcp", "F14_ZFCP")].

(** handlers/f20.py:92-110 (F20Handler.dataMap) *)
Definition F20_data : list (string * string) := [
  ("BTRFSData", "F17_BTRFSData");
  ("DriverDiskData", "F14_DriverDiskData");
  ("DeviceData", "F8_DeviceData");
  ("DmRaidData", "FC6_DmRaidData");
  ("FcoeData", "F13_FcoeData");
  ("GroupData", "F12_GroupData");
  ("IscsiData", "F17_IscsiData");
  ("LogVolData", "F20_LogVolData");
  ("MultiPathData", "FC6_MultiPathData");
  ("NetworkData", "F20_NetworkData");
  ("PartData", "F18_PartData");
  ("RaidData", "F18_RaidData");
  ("RepoData", "F15_RepoData");
  ("SshPwData", "F13_SshPwData");
  ("UserData", "F19_UserData");
  ("VolGroupData", "F16_VolGroupData");
  ("ZFCPData", "F14_ZFCPData")].

(** handlers/f21.py:29-91 (F21Handler.commandMap) *)
Definition F21_commands : list (string * string) := [
  ("auth", "FC3_Authconfig");
  ("authconfig", "FC3_Authconfig");
  ("autopart", "F21_AutoPart");
  ("autostep", "FC3_AutoStep");
  ("bootloader", "F21_Bootloader");
  ("btrfs", "F17_BTRFS");
  ("cdrom", "FC3_Cdrom");
  ("clearpart", "F21_ClearPart");
  ("cmdline", "FC3_DisplayMode");
  ("device", "F8_Device");
  ("deviceprobe", "FC3_DeviceProbe");
  ("dmraid", "FC6_DmRaid");
  ("driverdisk", "F14_DriverDisk");
  ("eula", "F20_Eula");
  ("fcoe", "F13_Fcoe");
  ("firewall", "F20_Firewall");
  ("firstboot", "FC3_Firstboot");
  ("graphical", "FC3_DisplayMode");
  ("group", "F12_Group");
  ("halt", "F18_Reboot");
  ("harddrive", "FC3_HardDrive");
  ("ignoredisk", "F14_IgnoreDisk");
  ("install", "F20_Install");
  ("iscsi", "F17_Iscsi");
  ("iscsiname", "FC6_IscsiName");
  ("keyboard", "F18_Keyboard");
  ("lang", "F19_Lang");
  ("liveimg", "F19_Liveimg");
  ("logging", "FC6_Logging");
  ("logvol", "F21_LogVol");
  ("mediacheck", "FC4_MediaCheck");
  ("method", "F19_Method");
  ("multipath", "FC6_MultiPath");
  ("network", "F21_Network");
  ("nfs", "FC6_NFS");
  ("ostreesetup", "F21_OSTreeSetup");
  ("part", "F20_Partition");
  ("partition", "F20_Partition");
  ("poweroff", "F18_Reboot");
  ("raid", "F20_Raid");
  ("realm", "F19_Realm");
  ("reboot", "F18_Reboot");
  ("repo", "F21_Repo");
  ("rescue", "F10_Rescue");
  ("rootpw", "F18_RootPw");
  ("selinux", "FC3_SELinux");
  ("services", "FC6_Services");
  ("shutdown", "F18_Reboot");
  ("skipx", "FC3_SkipX");
  ("sshpw", "F13_SshPw");
  ("text", "FC3_DisplayMode");
  ("timezone", "F18_Timezone");
  ("updates", "F7_Updates");
  ("upgrade", "F20_Upgrade");
  ("url", "F18_Url");
  ("user", "F19_User");
  ("vnc", "F9_Vnc");
  ("volgroup", "F21_VolGroup");
  ("xconfig", "F14_XConfig");
  ("zerombr", "F9_ZeroMbr");
  ("zfcp", "F14_ZFCP")].

(** handlers/f21.py:93-111 (F21Handler.dataMap) *)
Definition F21_data : list (string * string) := [
  ("BTRFSData", "F17_BTRFSData");
  ("DriverDiskData", "F14_DriverDiskData");
  ("DeviceData", "F8_DeviceData");
  ("DmRaidData", "FC6_DmRaidData");
  ("FcoeData", "F13_FcoeData");
  ("GroupData", "F12_GroupData");
  ("IscsiData", "F17_IscsiData");
  ("LogVolData", "F21_LogVolData");
  ("MultiPathData", "FC6_MultiPathData");
  ("NetworkData", "F21_NetworkData");
  ("PartData", "F18_PartData");
  ("RaidData", "F18_RaidData");
  ("RepoData", "F21_RepoData");
  ("SshPwData", "F13_SshPwData");
  ("UserData", "F19_UserData");
  ("VolGroupData", "F21_VolGroupData");
  ("ZFCPData", "F14_ZFCPData")].

(** handlers/rhel7.py:29-96 (RHEL7Handler.commandMap) *)
Definition RHEL7_commands : list (string * string) := [
  ("auth", "FC3_Authconfig");
  ("authconfig", "FC3_Authconfig");
  ("autopart", "RHEL7_AutoPart");
  ("autostep", "FC3_AutoStep");
  ("bootloader", "RHEL7_Bootloader");
  ("btrfs", "RHEL7_BTRFS");
  ("cdrom", "FC3_Cdrom");
  ("clearpart", "RHEL7_ClearPart");
  ("cmdline", "FC3_DisplayMode");
  ("device", "F8_Device");
  ("deviceprobe", "FC3_DeviceProbe");
  ("dmraid", "FC6_DmRaid");
  ("driverdisk", "F14_DriverDisk");
  ("eula", "F20_Eula");
  ("fcoe", "RHEL7_Fcoe");
  ("firewall", "F20_Firewall");
  ("firstboot", "FC3_Firstboot");
  ("graphical", "FC3_DisplayMode");
  ("group", "F12_Group");
  ("halt", "F18_Reboot");
  ("harddrive", "FC3_HardDrive");
  ("hmc", "RHEL7_Hmc");
  ("ignoredisk", "F14_IgnoreDisk");
  ("install", "F11_Upgrade");
  ("iscsi", "F17_Iscsi");
  ("iscsiname", "FC6_IscsiName");
  ("keyboard", "F18_Keyboard");
  ("lang", "F19_Lang");
  ("liveimg", "F19_Liveimg");
  ("logging", "FC6_Logging");
  ("logvol", "RHEL7_LogVol");
  ("mediacheck", "FC4_MediaCheck");
  ("method", "RHEL7_Method");
  ("multipath", "FC6_MultiPath");
  ("network", "RHEL7_Network");
  ("nfs", "FC6_NFS");
  ("nvdimm", "F28_Nvdimm");
  ("ostreesetup", "RHEL7_OSTreeSetup");
  ("part", "RHEL7_Partition");
  ("partition", "RHEL7_Partition");
  ("poweroff", "F18_Reboot");
  ("raid", "RHEL7_Raid");
  ("realm", "F19_Realm");
  ("reboot", "F18_Reboot");
  ("repo", "RHEL7_Repo");
  ("reqpart", "RHEL7_ReqPart");
  ("rescue", "F10_Rescue");
  ("rootpw", "F18_RootPw");
  ("selinux", "FC3_SELinux");
  ("services", "FC6_Services");
  ("shutdown", "F18_Reboot");
  ("skipx", "FC3_SkipX");
  ("snapshot", "F26_Snapshot");
  ("sshpw", "F13_SshPw");
  ("text", "FC3_DisplayMode");
  ("timezone", "RHEL7_Timezone");
  ("unsupported_hardware", "RHEL6_UnsupportedHardware");
  ("updates", "F7_Updates");
  ("upgrade", "F20_Upgrade");
  ("url", "F18_Url");
  ("user", "F19_User");
  ("vnc", "F9_Vnc");
  ("volgroup", "RHEL7_VolGroup");
  ("xconfig", "F14_XConfig");
  ("zerombr", "F9_ZeroMbr");
  ("zfcp", "F14_ZFCP")].

(** handlers/rhel7.py:98-118 (RHEL7Handler.dataMap) *)
Definition RHEL7_data : list (string * string) := [
  ("BTRFSData", "RHEL7_BTRFSData");
  ("DriverDiskData", "F14_DriverDiskData");
  ("DeviceData", "F8_DeviceData");
  ("DmRaidData", "FC6_DmRaidData");
  ("FcoeData", "RHEL7_FcoeData");
  ("GroupData", "F12_GroupData");
  ("IscsiData", "F17_IscsiData");
  ("LogVolData", "RHEL7_LogVolData");
  ("MultiPathData", "FC6_MultiPathData");
  ("NetworkData", "RHEL7_NetworkData");
  ("NvdimmData", "F28_NvdimmData");
  ("PartData", "RHEL7_PartData");
  ("RaidData", "RHEL7_RaidData");
  ("RepoData", "RHEL7_RepoData");
  ("SnapshotData", "F26_SnapshotData");
  ("SshPwData", "F13_SshPwData");
  ("UserData", "F19_UserData");
  ("VolGroupData", "RHEL7_VolGroupData");
  ("ZFCPData", "F14_ZFCPData")].

(** handlers/f22.py:29-92 (F22Handler.commandMap) *)
Definition F22_commands : list (string * string) := [
  ("auth", "FC3_Authconfig");
  ("authconfig", "FC3_Authconfig");
  ("autopart", "F21_AutoPart");
  ("autostep", "FC3_AutoStep");
  ("bootloader", "F21_Bootloader");
  ("btrfs", "F17_BTRFS");
  ("cdrom", "FC3_Cdrom");
  ("clearpart", "F21_ClearPart");
  ("cmdline", "FC3_DisplayMode");
  ("device", "F8_Device");
  ("deviceprobe", "FC3_DeviceProbe");
  ("dmraid", "FC6_DmRaid");
  ("driverdisk", "F14_DriverDisk");
  ("eula", "F20_Eula");
  ("fcoe", "F13_Fcoe");
  ("firewall", "F20_Firewall");
  ("firstboot", "FC3_Firstboot");
  ("graphical", "FC3_DisplayMode");
  ("group", "F12_Group");
  ("halt", "F18_Reboot");
  ("harddrive", "FC3_HardDrive");
  ("ignoredisk", "F14_IgnoreDisk");
  ("install", "F20_Install");
  ("iscsi", "F17_Iscsi");
  ("iscsiname", "FC6_IscsiName");
  ("keyboard", "F18_Keyboard");
  ("lang", "F19_Lang");
  ("liveimg", "F19_Liveimg");
  ("logging", "FC6_Logging");
  ("logvol", "F21_LogVol");
  ("mediacheck", "FC4_MediaCheck");
  ("method", "F19_Method");
  ("multipath", "FC6_MultiPath");
  ("network", "F22_Network");
  ("nfs", "FC6_NFS");
  ("ostreesetup", "F21_OSTreeSetup");
  ("part", "F20_Partition");
  ("partition", "F20_Partition");
  ("poweroff", "F18_Reboot");
  ("raid", "F20_Raid");
  ("realm", "F19_Realm");
  ("reboot", "F18_Reboot");
  ("repo", "F21_Repo");
  ("rescue", "F10_Rescue");
  ("rootpw", "F18_RootPw");
  ("selinux", "FC3_SELinux");
  ("services", "FC6_Services");
  ("shutdown", "F18_Reboot");
  ("skipx", "FC3_SkipX");
  ("sshpw", "F13_SshPw");
  ("sshkey", "F22_SshKey");
  ("text", "FC3_DisplayMode");
  ("timezone", "F18_Timezone");
  ("updates", "F7_Updates");
  ("upgrade", "F20_Upgrade");
  ("url", "F18_Url");
  ("user", "F19_User");
  ("vnc", "F9_Vnc");
  ("volgroup", "F21_VolGroup");
  ("xconfig", "F14_XConfig");
  ("zerombr", "F9_ZeroMbr");
  ("zfcp", "F14_ZFCP")].

(** handlers/f22.py:94-113 (F22Handler.dataMap) *)
Definition F22_data : list (string * string) := [
  ("BTRFSData", "F17_BTRFSData");
  ("DriverDiskData", "F14_DriverDiskData");
  ("DeviceData", "F8_DeviceData");
  ("DmRaidData", "FC6_DmRaidData");
  ("FcoeData", "F13_FcoeData");
  ("GroupData", "F12_GroupData");
  ("IscsiData", "F17_IscsiData");
  ("LogVolData", "F21_LogVolData");
  ("MultiPathData", "FC6_MultiPathData");
  ("NetworkData", "F22_NetworkData");
  ("PartData", "F18_PartData");
  ("RaidData", "F18_RaidData");
  ("RepoData", "F21_RepoData");
  ("SshPwData", "F13_SshPwData");
  ("SshKeyData", "F22_SshKeyData");
  ("UserData", "F19_UserData");
  ("VolGroupData", "F21_VolGroupData");
  ("ZFCPData", "F14_ZFCPData")].

(** handlers/f23.py:29-93 (F23Handler.commandMap) *)
Definition F23_commands : list (string * string) := [
  ("auth", "FC3_Authconfig");
  ("authconfig", "FC3_Authconfig");
  ("autopart", "F23_AutoPart");
  ("autostep", "FC3_AutoStep");
  ("bootloader", "F21_Bootloader");
  ("btrfs", "F23_BTRFS");
  ("cdrom", "FC3_Cdrom");
  ("clearpart", "F21_ClearPart");
  ("cmdline", "FC3_DisplayMode");
  ("device", "F8_Device");
  ("deviceprobe", "FC3_DeviceProbe");
  ("dmraid", "FC6_DmRaid");
  ("driverdisk", "F14_DriverDisk");
  ("eula", "F20_Eula");
  ("fcoe", "F13_Fcoe");
  ("firewall", "F20_Firewall");
  ("firstboot", "FC3_Firstboot");
  ("graphical", "FC3_DisplayMode");
  ("group", "F12_Group");
  ("halt", "F23_Reboot");
  ("harddrive", "FC3_HardDrive");
  ("ignoredisk", "F14_IgnoreDisk");
  ("install", "F20_Install");
  ("iscsi", "F17_Iscsi");
  ("iscsiname", "FC6_IscsiName");
  ("keyboard", "F18_Keyboard");
  ("lang", "F19_Lang");
  ("liveimg", "F19_Liveimg");
  ("logging", "FC6_Logging");
  ("logvol", "F23_LogVol");
  ("mediacheck", "FC4_MediaCheck");
  ("method", "F19_Method");
  ("multipath", "FC6_MultiPath");
  ("network", "F22_Network");
  ("nfs", "FC6_NFS");
  ("ostreesetup", "F21_OSTreeSetup");
  ("part", "F23_Partition");
  ("partition", "F23_Partition");
  ("poweroff", "F23_Reboot");
  ("raid", "F23_Raid");
  ("realm", "F19_Realm");
  ("reboot", "F23_Reboot");
  ("repo", "F21_Repo");
  ("reqpart", "F23_ReqPart");
  ("rescue", "F10_Rescue");
  ("rootpw", "F18_RootPw");
  ("selinux", "FC3_SELinux");
  ("services", "FC6_Services");
  ("shutdown", "F23_Reboot");
  ("skipx", "FC3_SkipX");
  ("sshpw", "F13_SshPw");
  ("sshkey", "F22_SshKey");
  ("text", "FC3_DisplayMode");
  ("timezone", "F23_Timezone");
  ("updates", "F7_Updates");
  ("upgrade", "F20_Upgrade");
  ("url", "F18_Url");
  ("user", "F19_User");
  ("vnc", "F9_Vnc");
  ("volgroup", "F21_VolGroup");
  ("xconfig", "F14_XConfig");
  ("zerombr", "F9_ZeroMbr");
  ("zfcp", "F14_ZFCP")].

(** handlers/f23.py:95-114 (F23Handler.dataMap) *)
Definition F23_data : list (string * string) := [
  ("BTRFSData", "F23_BTRFSData");
  ("DriverDiskData", "F14_DriverDiskData");
  ("DeviceData", "F8_DeviceData");
  ("DmRaidData", "FC6_DmRaidData");
  ("FcoeData", "F13_FcoeData");
  ("GroupData", "F12_GroupData");
  ("IscsiData", "F17_IscsiData");
  ("LogVolData", "F23_LogVolData");
  ("MultiPathData", "FC6_MultiPathData");
  ("NetworkData", "F22_NetworkData");
  ("PartData", "F23_PartData");
  ("RaidData", "F23_RaidData");
  ("RepoData", "F21_RepoData");
  ("SshPwData", "F13_SshPwData");
  ("SshKeyData", "F22_SshKeyData");
  ("UserData", "F19_UserData");
  ("VolGroupData", "F21_VolGroupData");
  ("ZFCPData", "F14_ZFCPData")].

(** handlers/f24.py:29-93 (F24Handler.commandMap) *)
Definition F24_commands : list (string * string) := [
  ("auth", "FC3_Authconfig");
  ("authconfig", "FC3_Authconfig");
  ("autopart", "F23_AutoPart");
  ("autostep", "FC3_AutoStep");
  ("bootloader", "F21_Bootloader");
  ("btrfs", "F23_BTRFS");
  ("cdrom", "FC3_Cdrom");
  ("clearpart", "F21_ClearPart");
  ("cmdline", "FC3_DisplayMode");
  ("device", "F24_Device");
  ("deviceprobe", "FC3_DeviceProbe");
  ("dmraid", "F24_DmRaid");
  ("driverdisk", "F14_DriverDisk");
  ("eula", "F20_Eula");
  ("fcoe", "F13_Fcoe");
  ("firewall", "F20_Firewall");
  ("firstboot", "FC3_Firstboot");
  ("graphical", "FC3_DisplayMode");
  ("group", "F12_Group");
  ("halt", "F23_Reboot");
  ("harddrive", "FC3_HardDrive");
  ("ignoredisk", "F14_IgnoreDisk");
  ("install", "F20_Install");
  ("iscsi", "F17_Iscsi");
  ("iscsiname", "FC6_IscsiName");
  ("keyboard", "F18_Keyboard");
  ("lang", "F19_Lang");
  ("liveimg", "F19_Liveimg");
  ("logging", "FC6_Logging");
  ("logvol", "F23_LogVol");
  ("mediacheck", "FC4_MediaCheck");
  ("method", "F19_Method");
  ("multipath", "F24_MultiPath");
  ("network", "F24_Network");
  ("nfs", "FC6_NFS");
  ("ostreesetup", "F21_OSTreeSetup");
  ("part", "F23_Partition");
  ("partition", "F23_Partition");
  ("poweroff", "F23_Reboot");
  ("raid", "F23_Raid");
  ("realm", "F19_Realm");
  ("reboot", "F23_Reboot");
  ("repo", "F21_Repo");
  ("reqpart", "F23_ReqPart");
  ("rescue", "F10_Rescue");
  ("rootpw", "F18_RootPw");
  ("selinux", "FC3_SELinux");
  ("services", "FC6_Services");
  ("shutdown", "F23_Reboot");
  ("skipx", "FC3_SkipX");
  ("sshpw", "F24_SshPw");
  ("sshkey", "F22_SshKey");
  ("text", "FC3_DisplayMode");
  ("timezone", "F23_Timezone");
  ("updates", "F7_Updates");
  ("upgrade", "F20_Upgrade");
  ("url", "F18_Url");
  ("user", "F24_User");
  ("vnc", "F9_Vnc");
  ("volgroup", "F21_VolGroup");
  ("xconfig", "F14_XConfig");
  ("zerombr", "F9_ZeroMbr");
  ("zfcp", "F14_ZFCP")].

(** handlers/f24.py:95-114 (F24Handler.dataMap) *)
Definition F24_data : list (string * string) := [
  ("BTRFSData", "F23_BTRFSData");
  ("DriverDiskData", "F14_DriverDiskData");
  ("DeviceData", "F8_DeviceData");
  ("DmRaidData", "FC6_DmRaidData");
  ("FcoeData", "F13_FcoeData");
  ("GroupData", "F12_GroupData");
  ("IscsiData", "F17_IscsiData");
  ("LogVolData", "F23_LogVolData");
  ("MultiPathData", "FC6_MultiPathData");
  ("NetworkData", "F22_NetworkData");
  ("PartData", "F23_PartData");
  ("RaidData", "F23_RaidData");
  ("RepoData", "F21_RepoData");
  ("SshPwData", "F24_SshPwData");
  ("SshKeyData", "F22_SshKeyData");
  ("UserData", "F19_UserData");
  ("VolGroupData", "F21_VolGroupData");
  ("ZFCPData", "F14_ZFCPData")].

(** handlers/f25.py:29-93 (F25Handler.commandMap) *)
Definition F25_commands : list (string * string) := [
  ("auth", "FC3_Authconfig");
  ("authconfig", "FC3_Authconfig");
  ("autopart", "F23_AutoPart");
  ("autostep", "FC3_AutoStep");
  ("bootloader", "F21_Bootloader");
  ("btrfs", "F23_BTRFS");
  ("cdrom", "FC3_Cdrom");
  ("clearpart", "F21_ClearPart");
  ("cmdline", "FC3_DisplayMode");
  ("device", "F24_Device");
  ("deviceprobe", "FC3_DeviceProbe");
  ("dmraid", "F24_DmRaid");
  ("driverdisk", "F14_DriverDisk");
  ("eula", "F20_Eula");
  ("fcoe", "F13_Fcoe");
  ("firewall", "F20_Firewall");
  ("firstboot", "FC3_Firstboot");
  ("graphical", "FC3_DisplayMode");
  ("group", "F12_Group");
  ("halt", "F23_Reboot");
  ("harddrive", "FC3_HardDrive");
  ("ignoredisk", "F14_IgnoreDisk");
  ("install", "F20_Install");
  ("iscsi", "F17_Iscsi");
  ("iscsiname", "FC6_IscsiName");
  ("keyboard", "F18_Keyboard");
  ("lang", "F19_Lang");
  ("liveimg", "F19_Liveimg");
  ("logging", "FC6_Logging");
  ("logvol", "F23_LogVol");
  ("mediacheck", "FC4_MediaCheck");
  ("method", "F19_Method");
  ("multipath", "F24_MultiPath");
  ("network", "F25_Network");
  ("nfs", "FC6_NFS");
  ("ostreesetup", "F21_OSTreeSetup");
  ("part", "F23_Partition");
  ("partition", "F23_Partition");
  ("poweroff", "F23_Reboot");
  ("raid", "F25_Raid");
  ("realm", "F19_Realm");
  ("reboot", "F23_Reboot");
  ("repo", "F21_Repo");
  ("reqpart", "F23_ReqPart");
  ("rescue", "F10_Rescue");
  ("rootpw", "F18_RootPw");
  ("selinux", "FC3_SELinux");
  ("services", "FC6_Services");
  ("shutdown", "F23_Reboot");
  ("skipx", "FC3_SkipX");
  ("sshpw", "F24_SshPw");
  ("sshkey", "F22_SshKey");
  ("text", "FC3_DisplayMode");
  ("timezone", "F25_Timezone");
  ("updates", "F7_Updates");
  ("upgrade", "F20_Upgrade");
  ("url", "F18_Url");
  ("user", "F24_User");
  ("vnc", "F9_Vnc");
  ("volgroup", "F21_VolGroup");
  ("xconfig", "F14_XConfig");
  ("zerombr", "F9_ZeroMbr");
  ("zfcp", "F14_ZFCP")].

(** handlers/f25.py:95-114 (F25Handler.dataMap) *)
Definition F25_data : list (string * string) := [
  ("BTRFSData", "F23_BTRFSData");
  ("DriverDiskData", "F14_DriverDiskData");
  ("DeviceData", "F8_DeviceData");
  ("DmRaidData", "FC6_DmRaidData");
  ("FcoeData", "F13_FcoeData");
  ("GroupData", "F12_GroupData");
  ("IscsiData", "F17_IscsiData");
  ("LogVolData", "F23_LogVolData");
  ("MultiPathData", "FC6_MultiPathData");
  ("NetworkData", "F25_NetworkData");
  ("PartData", "F23_PartData");
  ("RaidData", "F25_RaidData");
  ("RepoData", "F21_RepoData");
  ("SshPwData", "F24_SshPwData");
  ("SshKeyData", "F22_SshKeyData");
  ("UserData", "F19_UserData");
  ("VolGroupData", "F21_VolGroupData");
  ("ZFCPData", "F14_ZFCPData")].

(** handlers/f26.py:29-94 (F26Handler.commandMap) *)
Definition F26_commands : list (string * string) := [
  ("auth", "FC3_Authconfig");
  ("authconfig", "FC3_Authconfig");
  ("autopart", "F26_AutoPart");
  ("autostep", "FC3_AutoStep");
  ("bootloader", "F21_Bootloader");
  ("btrfs", "F23_BTRFS");
  ("cdrom", "FC3_Cdrom");
  ("clearpart", "F21_ClearPart");
  ("cmdline", "F26_DisplayMode");
  ("device", "F24_Device");
  ("deviceprobe", "FC3_DeviceProbe");
  ("dmraid", "F24_DmRaid");
  ("driverdisk", "F14_DriverDisk");
  ("eula", "F20_Eula");
  ("fcoe", "F13_Fcoe");
  ("firewall", "F20_Firewall");
  ("firstboot", "FC3_Firstboot");
  ("graphical", "F26_DisplayMode");
  ("group", "F12_Group");
  ("halt", "F23_Reboot");
  ("harddrive", "FC3_HardDrive");
  ("ignoredisk", "F14_IgnoreDisk");
  ("install", "F20_Install");
  ("iscsi", "F17_Iscsi");
  ("iscsiname", "FC6_IscsiName");
  ("keyboard", "F18_Keyboard");
  ("lang", "F19_Lang");
  ("liveimg", "F19_Liveimg");
  ("logging", "FC6_Logging");
  ("logvol", "F23_LogVol");
  ("mediacheck", "FC4_MediaCheck");
  ("method", "F19_Method");
  ("multipath", "F24_MultiPath");
  ("network", "F25_Network");
  ("nfs", "FC6_NFS");
  ("ostreesetup", "F21_OSTreeSetup");
  ("part", "F23_Partition");
  ("partition", "F23_Partition");
  ("poweroff", "F23_Reboot");
  ("raid", "F25_Raid");
  ("realm", "F19_Realm");
  ("reboot", "F23_Reboot");
  ("repo", "F21_Repo");
  ("reqpart", "F23_ReqPart");
  ("rescue", "F10_Rescue");
  ("rootpw", "F18_RootPw");
  ("selinux", "FC3_SELinux");
  ("services", "FC6_Services");
  ("shutdown", "F23_Reboot");
  ("skipx", "FC3_SkipX");
  ("snapshot", "F26_Snapshot");
  ("sshpw", "F24_SshPw");
  ("sshkey", "F22_SshKey");
  ("text", "F26_DisplayMode");
  ("timezone", "F25_Timezone");
  ("updates", "F7_Updates");
  ("upgrade", "F20_Upgrade");
  ("url", "F18_Url");
  ("user", "F24_User");
  ("vnc", "F9_Vnc");
  ("volgroup", "F21_VolGroup");
  ("xconfig", "F14_XConfig");
  ("zerombr", "F9_ZeroMbr");
  ("zfcp", "F14_ZFCP")].

(** handlers/f26.py:96-116 (F26Handler.dataMap) *)
Definition F26_data : list (string * string) := [
  ("BTRFSData", "F23_BTRFSData");
  ("DriverDiskData", "F14_DriverDiskData");
  ("DeviceData", "F8_DeviceData");
  ("DmRaidData", "FC6_DmRaidData");
  ("FcoeData", "F13_FcoeData");
  ("GroupData", "F12_GroupData");
  ("IscsiData", "F17_IscsiData");
  ("LogVolData", "F23_LogVolData");
  ("MultiPathData", "FC6_MultiPathData");
  ("NetworkData", "F25_NetworkData");
  ("PartData", "F23_PartData");
  ("RaidData", "F25_RaidData");
  ("RepoData", "F21_RepoData");
  ("SnapshotData", "F26_SnapshotData");
  ("SshPwData", "F24_SshPwData");
  ("SshKeyData", "F22_SshKeyData");
  ("UserData", "F19_UserData");
  ("VolGroupData", "F21_VolGroupData");
  ("ZFCPData", "F14_ZFCPData")].

(** handlers/f27.py:29-95 (F27Handler.commandMap) *)
Definition F27_commands : list (string * string) := [
  ("auth", "FC3_Authconfig");
  ("authconfig", "FC3_Authconfig");
  ("autopart", "F26_AutoPart");
  ("autostep", "FC3_AutoStep");
  ("bootloader", "F21_Bootloader");
  ("btrfs", "F23_BTRFS");
  ("cdrom", "FC3_Cdrom");
  ("clearpart", "F21_ClearPart");
  ("cmdline", "F26_DisplayMode");
  ("device", "F24_Device");
  ("deviceprobe", "FC3_DeviceProbe");
  ("dmraid", "F24_DmRaid");
  ("driverdisk", "F14_DriverDisk");
  ("eula", "F20_Eula");
  ("fcoe", "F13_Fcoe");
  ("firewall", "F20_Firewall");
  ("firstboot", "FC3_Firstboot");
  ("graphical", "F26_DisplayMode");
  ("group", "F12_Group");
  ("halt", "F23_Reboot");
  ("harddrive", "FC3_HardDrive");
  ("ignoredisk", "F14_IgnoreDisk");
  ("install", "F20_Install");
  ("iscsi", "F17_Iscsi");
  ("iscsiname", "FC6_IscsiName");
  ("keyboard", "F18_Keyboard");
  ("lang", "F19_Lang");
  ("liveimg", "F19_Liveimg");
  ("logging", "FC6_Logging");
  ("logvol", "F23_LogVol");
  ("mediacheck", "FC4_MediaCheck");
  ("method", "F19_Method");
  ("mount", "F27_Mount");
  ("multipath", "F24_MultiPath");
  ("network", "F27_Network");
  ("nfs", "FC6_NFS");
  ("ostreesetup", "F21_OSTreeSetup");
  ("part", "F23_Partition");
  ("partition", "F23_Partition");
  ("poweroff", "F23_Reboot");
  ("raid", "F25_Raid");
  ("realm", "F19_Realm");
  ("reboot", "F23_Reboot");
  ("repo", "F27_Repo");
  ("reqpart", "F23_ReqPart");
  ("rescue", "F10_Rescue");
  ("rootpw", "F18_RootPw");
  ("selinux", "FC3_SELinux");
  ("services", "FC6_Services");
  ("shutdown", "F23_Reboot");
  ("skipx", "FC3_SkipX");
  ("snapshot", "F26_Snapshot");
  ("sshpw", "F24_SshPw");
  ("sshkey", "F22_SshKey");
  ("text", "F26_DisplayMode");
  ("timezone", "F25_Timezone");
  ("updates", "F7_Updates");
  ("upgrade", "F20_Upgrade");
  ("url", "F27_Url");
  ("user", "F24_User");
  ("vnc", "F9_Vnc");
  ("volgroup", "F21_VolGroup");
  ("xconfig", "F14_XConfig");
  ("zerombr", "F9_ZeroMbr");
  ("zfcp", "F14_ZFCP")].

(** handlers/f27.py:97-118 (F27Handler.dataMap) *)
Definition F27_data : list (string * string) := [
  ("BTRFSData", "F23_BTRFSData");
  ("DriverDiskData", "F14_DriverDiskData");
  ("DeviceData", "F8_DeviceData");
  ("DmRaidData", "FC6_DmRaidData");
  ("FcoeData", "F13_FcoeData");
  ("GroupData", "F12_GroupData");
  ("IscsiData", "F17_IscsiData");
  ("LogVolData", "F23_LogVolData");
  ("MountData", "F27_MountData");
  ("MultiPathData", "FC6_MultiPathData");
  ("NetworkData", "F27_NetworkData");
  ("PartData", "F23_PartData");
  ("RaidData", "F25_RaidData");
  ("RepoData", "F27_RepoData");
  ("SnapshotData", "F26_SnapshotData");
  ("SshPwData", "F24_SshPwData");
  ("SshKeyData", "F22_SshKeyData");
  ("UserData", "F19_UserData");
  ("VolGroupData", "F21_VolGroupData");
  ("ZFCPData", "F14_ZFCPData")].

(** handlers/f28.py:29-98 (F28Handler.commandMap) *)
Definition F28_commands : list (string * string) := [
  ("auth", "F28_Authconfig");
  ("authconfig", "F28_Authconfig");
  ("authselect", "F28_Authselect");
  ("autopart", "F26_AutoPart");
  ("autostep", "FC3_AutoStep");
  ("bootloader", "F21_Bootloader");
  ("btrfs", "F23_BTRFS");
  ("cdrom", "FC3_Cdrom");
  ("clearpart", "F28_ClearPart");
  ("cmdline", "F26_DisplayMode");
  ("device", "F24_Device");
  ("deviceprobe", "FC3_DeviceProbe");
  ("dmraid", "F24_DmRaid");
  ("driverdisk", "F14_DriverDisk");
  ("eula", "F20_Eula");
  ("fcoe", "F28_Fcoe");
  ("firewall", "F28_Firewall");
  ("firstboot", "FC3_Firstboot");
  ("graphical", "F26_DisplayMode");
  ("group", "F12_Group");
  ("halt", "F23_Reboot");
  ("harddrive", "FC3_HardDrive");
  ("hmc", "F28_Hmc");
  ("ignoredisk", "F14_IgnoreDisk");
  ("install", "F20_Install");
  ("iscsi", "F17_Iscsi");
  ("iscsiname", "FC6_IscsiName");
  ("keyboard", "F18_Keyboard");
  ("lang", "F19_Lang");
  ("liveimg", "F19_Liveimg");
  ("logging", "FC6_Logging");
  ("logvol", "F23_LogVol");
  ("mediacheck", "FC4_MediaCheck");
  ("method", "F28_Method");
  ("mount", "F27_Mount");
  ("multipath", "F24_MultiPath");
  ("network", "F27_Network");
  ("nfs", "FC6_NFS");
  ("nvdimm", "F28_Nvdimm");
  ("ostreesetup", "F21_OSTreeSetup");
  ("part", "F23_Partition");
  ("partition", "F23_Partition");
  ("poweroff", "F23_Reboot");
  ("raid", "F25_Raid");
  ("realm", "F19_Realm");
  ("reboot", "F23_Reboot");
  ("repo", "F27_Repo");
  ("reqpart", "F23_ReqPart");
  ("rescue", "F10_Rescue");
  ("rootpw", "F18_RootPw");
  ("selinux", "FC3_SELinux");
  ("services", "FC6_Services");
  ("shutdown", "F23_Reboot");
  ("skipx", "FC3_SkipX");
  ("snapshot", "F26_Snapshot");
  ("sshpw", "F24_SshPw");
  ("sshkey", "F22_SshKey");
  ("text", "F26_DisplayMode");
  ("timezone", "F25_Timezone");
  ("updates", "F7_Updates");
  ("upgrade", "F20_Upgrade");
  ("url", "F27_Url");
  ("user", "F24_User");
  ("vnc", "F9_Vnc");
  ("volgroup", "F21_VolGroup");
  ("xconfig", "F14_XConfig");
  ("zerombr", "F9_ZeroMbr");
  ("zfcp", "F14_ZFCP")].

(** handlers/f28.py:100-122 (F28Handler.dataMap) *)
Definition F28_data : list (string * string) := [
  ("BTRFSData", "F23_BTRFSData");
  ("DriverDiskData", "F14_DriverDiskData");
  ("DeviceData", "F8_DeviceData");
  ("DmRaidData", "FC6_DmRaidData");
  ("FcoeData", "F28_FcoeData");
  ("GroupData", "F12_GroupData");
  ("IscsiData", "F17_IscsiData");
  ("LogVolData", "F23_LogVolData");
  ("MountData", "F27_MountData");
  ("MultiPathData", "FC6_MultiPathData");
  ("NetworkData", "F27_NetworkData");
  ("NvdimmData", "F28_NvdimmData");
  ("PartData", "F23_PartData");
  ("RaidData", "F25_RaidData");
  ("RepoData", "F27_RepoData");
  ("SnapshotData", "F26_SnapshotData");
  ("SshPwData", "F24_SshPwData");
  ("SshKeyData", "F22_SshKeyData");
  ("UserData", "F19_UserData");
  ("VolGroupData", "F21_VolGroupData");
  ("ZFCPData", "F14_ZFCPData")].

(** handlers/rhel8.py:29-101 (RHEL8Handler.commandMap) *)
Definition RHEL8_commands : list (string * string) := [
  ("auth", "F28_Authconfig");
  ("authconfig", "F28_Authconfig");
  ("authselect", "F28_Authselect");
  ("autopart", "RHEL8_AutoPart");
  ("autostep", "FC3_AutoStep");
  ("bootloader", "RHEL8_Bootloader");
  ("btrfs", "RHEL8_BTRFS");
  ("cdrom", "FC3_Cdrom");
  ("clearpart", "F28_ClearPart");
  ("cmdline", "F26_DisplayMode");
  ("device", "F24_Device");
  ("deviceprobe", "F29_DeviceProbe");
  ("dmraid", "F24_DmRaid");
  ("driverdisk", "F14_DriverDisk");
  ("module", "RHEL8_Module");
  ("eula", "F20_Eula");
  ("fcoe", "RHEL8_Fcoe");
  ("firewall", "F28_Firewall");
  ("firstboot", "FC3_Firstboot");
  ("graphical", "F26_DisplayMode");
  ("group", "F12_Group");
  ("halt", "F23_Reboot");
  ("harddrive", "FC3_HardDrive");
  ("hmc", "F28_Hmc");
  ("ignoredisk", "F29_IgnoreDisk");
  ("install", "F29_Install");
  ("iscsi", "F17_Iscsi");
  ("iscsiname", "FC6_IscsiName");
  ("keyboard", "F18_Keyboard");
  ("lang", "F19_Lang");
  ("liveimg", "F19_Liveimg");
  ("logging", "FC6_Logging");
  ("logvol", "RHEL8_LogVol");
  ("mediacheck", "FC4_MediaCheck");
  ("method", "F28_Method");
  ("mount", "F27_Mount");
  ("multipath", "F24_MultiPath");
  ("network", "F27_Network");
  ("nfs", "FC6_NFS");
  ("nvdimm", "F28_Nvdimm");
  ("ostreesetup", "RHEL8_OSTreeSetup");
  ("part", "RHEL8_Partition");
  ("partition", "RHEL8_Partition");
  ("poweroff", "F23_Reboot");
  ("raid", "RHEL8_Raid");
  ("realm", "F19_Realm");
  ("reboot", "F23_Reboot");
  ("repo", "RHEL8_Repo");
  ("reqpart", "F23_ReqPart");
  ("rescue", "F10_Rescue");
  ("rhsm", "RHEL8_RHSM");
  ("rootpw", "F18_RootPw");
  ("selinux", "FC3_SELinux");
  ("services", "FC6_Services");
  ("shutdown", "F23_Reboot");
  ("skipx", "FC3_SkipX");
  ("snapshot", "F26_Snapshot");
  ("sshpw", "F24_SshPw");
  ("sshkey", "F22_SshKey");
  ("syspurpose", "RHEL8_Syspurpose");
  ("text", "F26_DisplayMode");
  ("timezone", "F25_Timezone");
  ("updates", "F7_Updates");
  ("url", "RHEL8_Url");
  ("user", "F24_User");
  ("vnc", "F9_Vnc");
  ("volgroup", "RHEL8_VolGroup");
  ("xconfig", "F14_XConfig");
  ("zerombr", "F9_ZeroMbr");
  ("zfcp", "F14_ZFCP");
  ("zipl", "RHEL8_Zipl")].

(** handlers/rhel8.py:103-126 (RHEL8Handler.dataMap) *)
Definition RHEL8_data : list (string * string) := [
  ("BTRFSData", "F23_BTRFSData");
  ("DriverDiskData", "F14_DriverDiskData");
  ("DeviceData", "F8_DeviceData");
  ("DmRaidData", "FC6_DmRaidData");
  ("ModuleData", "RHEL8_ModuleData");
  ("FcoeData", "RHEL8_FcoeData");
  ("GroupData", "F12_GroupData");
  ("IscsiData", "F17_IscsiData");
  ("LogVolData", "RHEL8_LogVolData");
  ("MountData", "F27_MountData");
  ("MultiPathData", "FC6_MultiPathData");
  ("NetworkData", "F27_NetworkData");
  ("NvdimmData", "F28_NvdimmData");
  ("PartData", "RHEL8_PartData");
  ("RaidData", "RHEL8_RaidData");
  ("RepoData", "RHEL8_RepoData");
  ("SnapshotData", "F26_SnapshotData");
  ("SshPwData", "F24_SshPwData");
  ("SshKeyData", "F22_SshKeyData");
  ("UserData", "F19_UserData");
  ("VolGroupData", "RHEL8_VolGroupData");
  ("ZFCPData", "F14_ZFCPData")].

(** handlers/f29.py:29-99 (F29Handler.commandMap) *)
Definition F29_commands : list (string * string) := [
  ("auth", "F28_Authconfig");
  ("authconfig", "F28_Authconfig");
  ("authselect", "F28_Authselect");
  ("autopart", "F29_AutoPart");
  ("autostep", "FC3_AutoStep");
  ("bootloader", "F29_Bootloader");
  ("btrfs", "F23_BTRFS");
  ("cdrom", "FC3_Cdrom");
  ("clearpart", "F28_ClearPart");
  ("cmdline", "F26_DisplayMode");
  ("device", "F24_Device");
  ("deviceprobe", "F29_DeviceProbe");
  ("dmraid", "F24_DmRaid");
  ("driverdisk", "F14_DriverDisk");
  ("module", "F29_Module");
  ("eula", "F20_Eula");
  ("fcoe", "F28_Fcoe");
  ("firewall", "F28_Firewall");
  ("firstboot", "FC3_Firstboot");
  ("graphical", "F26_DisplayMode");
  ("group", "F12_Group");
  ("halt", "F23_Reboot");
  ("harddrive", "FC3_HardDrive");
  ("hmc", "F28_Hmc");
  ("ignoredisk", "F29_IgnoreDisk");
  ("install", "F29_Install");
  ("iscsi", "F17_Iscsi");
  ("iscsiname", "FC6_IscsiName");
  ("keyboard", "F18_Keyboard");
  ("lang", "F19_Lang");
  ("liveimg", "F19_Liveimg");
  ("logging", "FC6_Logging");
  ("logvol", "F29_LogVol");
  ("mediacheck", "FC4_MediaCheck");
  ("method", "F28_Method");
  ("mount", "F27_Mount");
  ("multipath", "F24_MultiPath");
  ("network", "F27_Network");
  ("nfs", "FC6_NFS");
  ("nvdimm", "F28_Nvdimm");
  ("ostreesetup", "F21_OSTreeSetup");
  ("part", "F29_Partition");
  ("partition", "F29_Partition");
  ("poweroff", "F23_Reboot");
  ("raid", "F29_Raid");
  ("realm", "F19_Realm");
  ("reboot", "F23_Reboot");
  ("repo", "F27_Repo");
  ("reqpart", "F23_ReqPart");
  ("rescue", "F10_Rescue");
  ("rootpw", "F18_RootPw");
  ("selinux", "FC3_SELinux");
  ("services", "FC6_Services");
  ("shutdown", "F23_Reboot");
  ("skipx", "FC3_SkipX");
  ("snapshot", "F26_Snapshot");
  ("sshpw", "F24_SshPw");
  ("sshkey", "F22_SshKey");
  ("text", "F26_DisplayMode");
  ("timezone", "F25_Timezone");
  ("updates", "F7_Updates");
  ("upgrade", "F29_Upgrade");
  ("url", "F27_Url");
  ("user", "F24_User");
  ("vnc", "F9_Vnc");
  ("volgroup", "F21_VolGroup");
  ("xconfig", "F14_XConfig");
  ("zerombr", "F9_ZeroMbr");
  ("zfcp", "F14_ZFCP")].

(** handlers/f29.py:101-124 (F29Handler.dataMap) *)
Definition F29_data : list (string * string) := [
  ("BTRFSData", "F23_BTRFSData");
  ("DriverDiskData", "F14_DriverDiskData");
  ("DeviceData", "F8_DeviceData");
  ("DmRaidData", "FC6_DmRaidData");
  ("ModuleData", "F29_ModuleData");
  ("FcoeData", "F28_FcoeData");
  ("GroupData", "F12_GroupData");
  ("IscsiData", "F17_IscsiData");
  ("LogVolData", "F29_LogVolData");
  ("MountData", "F27_MountData");
  ("MultiPathData", "FC6_MultiPathData");
  ("NetworkData", "F27_NetworkData");
  ("NvdimmData", "F28_NvdimmData");
  ("PartData", "F29_PartData");
  ("RaidData", "F29_RaidData");
  ("RepoData", "F27_RepoData");
  ("SnapshotData", "F26_SnapshotData");
  ("SshPwData", "F24_SshPwData");
  ("SshKeyData", "F22_SshKeyData");
  ("UserData", "F19_UserData");
  ("VolGroupData", "F21_VolGroupData");
  ("ZFCPData", "F14_ZFCPData")].

(** handlers/f30.py:29-98 (F30Handler.commandMap) *)
Definition F30_commands : list (string * string) := [
  ("auth", "F28_Authconfig");
  ("authconfig", "F28_Authconfig");
  ("authselect", "F28_Authselect");
  ("autopart", "F29_AutoPart");
  ("autostep", "FC3_AutoStep");
  ("bootloader", "F29_Bootloader");
  ("btrfs", "F23_BTRFS");
  ("cdrom", "FC3_Cdrom");
  ("clearpart", "F28_ClearPart");
  ("cmdline", "F26_DisplayMode");
  ("device", "F24_Device");
  ("deviceprobe", "F29_DeviceProbe");
  ("dmraid", "F24_DmRaid");
  ("driverdisk", "F14_DriverDisk");
  ("module", "F29_Module");
  ("eula", "F20_Eula");
  ("fcoe", "F28_Fcoe");
  ("firewall", "F28_Firewall");
  ("firstboot", "FC3_Firstboot");
  ("graphical", "F26_DisplayMode");
  ("group", "F12_Group");
  ("halt", "F23_Reboot");
  ("harddrive", "FC3_HardDrive");
  ("hmc", "F28_Hmc");
  ("ignoredisk", "F29_IgnoreDisk");
  ("install", "F29_Install");
  ("iscsi", "F17_Iscsi");
  ("iscsiname", "FC6_IscsiName");
  ("keyboard", "F18_Keyboard");
  ("lang", "F19_Lang");
  ("liveimg", "F19_Liveimg");
  ("logging", "FC6_Logging");
  ("logvol", "F29_LogVol");
  ("mediacheck", "FC4_MediaCheck");
  ("method", "F28_Method");
  ("mount", "F27_Mount");
  ("multipath", "F24_MultiPath");
  ("network", "F27_Network");
  ("nfs", "FC6_NFS");
  ("nvdimm", "F28_Nvdimm");
  ("ostreesetup", "F21_OSTreeSetup");
  ("part", "F29_Partition");
  ("partition", "F29_Partition");
  ("poweroff", "F23_Reboot");
  ("raid", "F29_Raid");
  ("realm", "F19_Realm");
  ("reboot", "F23_Reboot");
  ("repo", "F30_Repo");
  ("reqpart", "F23_ReqPart");
  ("rescue", "F10_Rescue");
  ("rootpw", "F18_RootPw");
  ("selinux", "FC3_SELinux");
  ("services", "FC6_Services");
  ("shutdown", "F23_Reboot");
  ("skipx", "FC3_SkipX");
  ("snapshot", "F26_Snapshot");
  ("sshpw", "F24_SshPw");
  ("sshkey", "F22_SshKey");
  ("text", "F26_DisplayMode");
  ("timezone", "F25_Timezone");
  ("updates", "F7_Updates");
  ("url", "F30_Url");
  ("user", "F24_User");
  ("vnc", "F9_Vnc");
  ("volgroup", "F21_VolGroup");
  ("xconfig", "F14_XConfig");
  ("zerombr", "F9_ZeroMbr");
  ("zfcp", "F14_ZFCP")].

(** handlers/f30.py:100-123 (F30Handler.dataMap) *)
Definition F30_data : list (string * string) := [
  ("BTRFSData", "F23_BTRFSData");
  ("DriverDiskData", "F14_DriverDiskData");
  ("DeviceData", "F8_DeviceData");
  ("DmRaidData", "FC6_DmRaidData");
  ("ModuleData", "F29_ModuleData");
  ("FcoeData", "F28_FcoeData");
  ("GroupData", "F12_GroupData");
  ("IscsiData", "F17_IscsiData");
  ("LogVolData", "F29_LogVolData");
  ("MountData", "F27_MountData");
  ("MultiPathData", "FC6_MultiPathData");
  ("NetworkData", "F27_NetworkData");
  ("NvdimmData", "F28_NvdimmData");
  ("PartData", "F29_PartData");
  ("RaidData", "F29_RaidData");
  ("RepoData", "F30_RepoData");
  ("SnapshotData", "F26_SnapshotData");
  ("SshPwData", "F24_SshPwData");
  ("SshKeyData", "F22_SshKeyData");
  ("UserData", "F19_UserData");
  ("VolGroupData", "F21_VolGroupData");
  ("ZFCPData", "F14_ZFCPData")].

(** handlers/f31.py:29-98 (F31Handler.commandMap) *)
Definition F31_commands : list (string * string) := [
  ("auth", "F28_Authconfig");
  ("authconfig", "F28_Authconfig");
  ("authselect", "F28_Authselect");
  ("autopart", "F29_AutoPart");
  ("autostep", "FC3_AutoStep");
  ("bootloader", "F29_Bootloader");
  ("btrfs", "F23_BTRFS");
  ("cdrom", "FC3_Cdrom");
  ("clearpart", "F28_ClearPart");
  ("cmdline", "F26_DisplayMode");
  ("device", "F24_Device");
  ("deviceprobe", "F29_DeviceProbe");
  ("dmraid", "F24_DmRaid");
  ("driverdisk", "F14_DriverDisk");
  ("module", "F31_Module");
  ("eula", "F20_Eula");
  ("fcoe", "F28_Fcoe");
  ("firewall", "F28_Firewall");
  ("firstboot", "FC3_Firstboot");
  ("graphical", "F26_DisplayMode");
  ("group", "F12_Group");
  ("halt", "F23_Reboot");
  ("harddrive", "FC3_HardDrive");
  ("hmc", "F28_Hmc");
  ("ignoredisk", "F29_IgnoreDisk");
  ("install", "F29_Install");
  ("iscsi", "F17_Iscsi");
  ("iscsiname", "FC6_IscsiName");
  ("keyboard", "F18_Keyboard");
  ("lang", "F19_Lang");
  ("liveimg", "F19_Liveimg");
  ("logging", "FC6_Logging");
  ("logvol", "F29_LogVol");
  ("mediacheck", "FC4_MediaCheck");
  ("method", "F28_Method");
  ("mount", "F27_Mount");
  ("multipath", "F24_MultiPath");
  ("network", "F27_Network");
  ("nfs", "FC6_NFS");
  ("nvdimm", "F28_Nvdimm");
  ("ostreesetup", "F21_OSTreeSetup");
  ("part", "F29_Partition");
  ("partition", "F29_Partition");
  ("poweroff", "F23_Reboot");
  ("raid", "F29_Raid");
  ("realm", "F19_Realm");
  ("reboot", "F23_Reboot");
  ("repo", "F30_Repo");
  ("reqpart", "F23_ReqPart");
  ("rescue", "F10_Rescue");
  ("rootpw", "F18_RootPw");
  ("selinux", "FC3_SELinux");
  ("services", "FC6_Services");
  ("shutdown", "F23_Reboot");
  ("skipx", "FC3_SkipX");
  ("snapshot", "F26_Snapshot");
  ("sshpw", "F24_SshPw");
  ("sshkey", "F22_SshKey");
  ("text", "F26_DisplayMode");
  ("timezone", "F25_Timezone");
  ("updates", "F7_Updates");
  ("url", "F30_Url");
  ("user", "F24_User");
  ("vnc", "F9_Vnc");
  ("volgroup", "F21_VolGroup");
  ("xconfig", "F14_XConfig");
  ("zerombr", "F9_ZeroMbr");
  ("zfcp", "F14_ZFCP")].

(** handlers/f31.py:100-123 (F31Handler.dataMap) *)
Definition F31_data : list (string * string) := [
  ("BTRFSData", "F23_BTRFSData");
  ("DriverDiskData", "F14_DriverDiskData");
  ("DeviceData", "F8_DeviceData");
  ("DmRaidData", "FC6_DmRaidData");
  ("ModuleData", "F31_ModuleData");
  ("FcoeData", "F28_FcoeData");
  ("GroupData", "F12_GroupData");
  ("IscsiData", "F17_IscsiData");
  ("LogVolData", "F29_LogVolData");
  ("MountData", "F27_MountData");
  ("MultiPathData", "FC6_MultiPathData");
  ("NetworkData", "F27_NetworkData");
  ("NvdimmData", "F28_NvdimmData");
  ("PartData", "F29_PartData");
  ("RaidData", "F29_RaidData");
  ("RepoData", "F30_RepoData");
  ("SnapshotData", "F26_SnapshotData");
  ("SshPwData", "F24_SshPwData");
  ("SshKeyData", "F22_SshKeyData");
  ("UserData", "F19_UserData");
  ("VolGroupData", "F21_VolGroupData");
  ("ZFCPData", "F14_ZFCPData")].

(** handlers/f32.py:27-97 (F32Handler.commandMap) *)
Definition F32_commands : list (string * string) := [
  ("auth", "F28_Authconfig");
  ("authconfig", "F28_Authconfig");
  ("authselect", "F28_Authselect");
  ("autopart", "F29_AutoPart");
  ("autostep", "FC3_AutoStep");
  ("bootloader", "F29_Bootloader");
  ("btrfs", "F23_BTRFS");
  ("cdrom", "FC3_Cdrom");
  ("clearpart", "F28_ClearPart");
  ("cmdline", "F26_DisplayMode");
  ("device", "F24_Device");
  ("deviceprobe", "F29_DeviceProbe");
  ("dmraid", "F24_DmRaid");
  ("driverdisk", "F14_DriverDisk");
  ("module", "F31_Module");
  ("eula", "F20_Eula");
  ("fcoe", "F28_Fcoe");
  ("firewall", "F28_Firewall");
  ("firstboot", "FC3_Firstboot");
  ("graphical", "F26_DisplayMode");
  ("group", "F12_Group");
  ("halt", "F23_Reboot");
  ("harddrive", "FC3_HardDrive");
  ("hmc", "F28_Hmc");
  ("ignoredisk", "F29_IgnoreDisk");
  ("install", "F29_Install");
  ("iscsi", "F17_Iscsi");
  ("iscsiname", "FC6_IscsiName");
  ("keyboard", "F18_Keyboard");
  ("lang", "F19_Lang");
  ("liveimg", "F19_Liveimg");
  ("logging", "FC6_Logging");
  ("logvol", "F29_LogVol");
  ("mediacheck", "FC4_MediaCheck");
  ("method", "F28_Method");
  ("mount", "F27_Mount");
  ("multipath", "F24_MultiPath");
  ("network", "F27_Network");
  ("nfs", "FC6_NFS");
  ("nvdimm", "F28_Nvdimm");
  ("ostreesetup", "F21_OSTreeSetup");
  ("part", "F29_Partition");
  ("partition", "F29_Partition");
  ("poweroff", "F23_Reboot");
  ("raid", "F29_Raid");
  ("realm", "F19_Realm");
  ("reboot", "F23_Reboot");
  ("repo", "F30_Repo");
  ("reqpart", "F23_ReqPart");
  ("rescue", "F10_Rescue");
  ("rootpw", "F18_RootPw");
  ("selinux", "FC3_SELinux");
  ("services", "FC6_Services");
  ("shutdown", "F23_Reboot");
  ("skipx", "FC3_SkipX");
  ("snapshot", "F26_Snapshot");
  ("sshpw", "F24_SshPw");
  ("sshkey", "F22_SshKey");
  ("text", "F26_DisplayMode");
  ("timezone", "F32_Timezone");
  ("updates", "F7_Updates");
  ("url", "F30_Url");
  ("user", "F24_User");
  ("vnc", "F9_Vnc");
  ("volgroup", "F21_VolGroup");
  ("xconfig", "F14_XConfig");
  ("zerombr", "F9_ZeroMbr");
  ("zfcp", "F14_ZFCP");
  ("zipl", "F32_Zipl")].

(** handlers/f32.py:99-122 (F32Handler.dataMap) *)
Definition F32_data : list (string * string) := [
  ("BTRFSData", "F23_BTRFSData");
  ("DriverDiskData", "F14_DriverDiskData");
  ("DeviceData", "F8_DeviceData");
  ("DmRaidData", "FC6_DmRaidData");
  ("ModuleData", "F31_ModuleData");
  ("FcoeData", "F28_FcoeData");
  ("GroupData", "F12_GroupData");
  ("IscsiData", "F17_IscsiData");
  ("LogVolData", "F29_LogVolData");
  ("MountData", "F27_MountData");
  ("MultiPathData", "FC6_MultiPathData");
  ("NetworkData", "F27_NetworkData");
  ("NvdimmData", "F28_NvdimmData");
  ("PartData", "F29_PartData");
  ("RaidData", "F29_RaidData");
  ("RepoData", "F30_RepoData");
  ("SnapshotData", "F26_SnapshotData");
  ("SshPwData", "F24_SshPwData");
  ("SshKeyData", "F22_SshKeyData");
  ("UserData", "F19_UserData");
  ("VolGroupData", "F21_VolGroupData");
  ("ZFCPData", "F14_ZFCPData")].

(** handlers/f33.py:27-98 (F33Handler.commandMap) *)
Definition F33_commands : list (string * string) := [
  ("auth", "F28_Authconfig");
  ("authconfig", "F28_Authconfig");
  ("authselect", "F28_Authselect");
  ("autopart", "F29_AutoPart");
  ("autostep", "FC3_AutoStep");
  ("bootloader", "F29_Bootloader");
  ("btrfs", "F23_BTRFS");
  ("cdrom", "FC3_Cdrom");
  ("clearpart", "F28_ClearPart");
  ("cmdline", "F26_DisplayMode");
  ("device", "F24_Device");
  ("deviceprobe", "F29_DeviceProbe");
  ("dmraid", "F24_DmRaid");
  ("driverdisk", "F14_DriverDisk");
  ("module", "F31_Module");
  ("eula", "F20_Eula");
  ("fcoe", "F28_Fcoe");
  ("firewall", "F28_Firewall");
  ("firstboot", "FC3_Firstboot");
  ("graphical", "F26_DisplayMode");
  ("group", "F12_Group");
  ("halt", "F23_Reboot");
  ("harddrive", "F33_HardDrive");
  ("hmc", "F28_Hmc");
  ("ignoredisk", "F29_IgnoreDisk");
  ("install", "F29_Install");
  ("iscsi", "F17_Iscsi");
  ("iscsiname", "FC6_IscsiName");
  ("keyboard", "F18_Keyboard");
  ("lang", "F19_Lang");
  ("liveimg", "F19_Liveimg");
  ("logging", "FC6_Logging");
  ("logvol", "F29_LogVol");
  ("mediacheck", "FC4_MediaCheck");
  ("method", "F28_Method");
  ("mount", "F27_Mount");
  ("multipath", "F24_MultiPath");
  ("network", "F27_Network");
  ("nfs", "FC6_NFS");
  ("nvdimm", "F28_Nvdimm");
  ("timesource", "F33_Timesource");
  ("ostreesetup", "F21_OSTreeSetup");
  ("part", "F29_Partition");
  ("partition", "F29_Partition");
  ("poweroff", "F23_Reboot");
  ("raid", "F29_Raid");
  ("realm", "F19_Realm");
  ("reboot", "F23_Reboot");
  ("repo", "F33_Repo");
  ("reqpart", "F23_ReqPart");
  ("rescue", "F10_Rescue");
  ("rootpw", "F18_RootPw");
  ("selinux", "FC3_SELinux");
  ("services", "FC6_Services");
  ("shutdown", "F23_Reboot");
  ("skipx", "FC3_SkipX");
  ("snapshot", "F26_Snapshot");
  ("sshpw", "F24_SshPw");
  ("sshkey", "F22_SshKey");
  ("text", "F26_DisplayMode");
  ("timezone", "F33_Timezone");
  ("updates", "F7_Updates");
  ("url", "F30_Url");
  ("user", "F24_User");
  ("vnc", "F9_Vnc");
  ("volgroup", "F21_VolGroup");
  ("xconfig", "F14_XConfig");
  ("zerombr", "F9_ZeroMbr");
  ("zfcp", "F14_ZFCP");
  ("zipl", "F32_Zipl")].

(** handlers/f33.py:100-124 (F33Handler.dataMap) *)
Definition F33_data : list (string * string) := [
  ("BTRFSData", "F23_BTRFSData");
  ("DriverDiskData", "F14_DriverDiskData");
  ("DeviceData", "F8_DeviceData");
  ("DmRaidData", "FC6_DmRaidData");
  ("ModuleData", "F31_ModuleData");
  ("TimesourceData", "F33_TimesourceData");
  ("FcoeData", "F28_FcoeData");
  ("GroupData", "F12_GroupData");
  ("IscsiData", "F17_IscsiData");
  ("LogVolData", "F29_LogVolData");
  ("MountData", "F27_MountData");
  ("MultiPathData", "FC6_MultiPathData");
  ("NetworkData", "F27_NetworkData");
  ("NvdimmData", "F28_NvdimmData");
  ("PartData", "F29_PartData");
  ("RaidData", "F29_RaidData");
  ("RepoData", "F30_RepoData");
  ("SnapshotData", "F26_SnapshotData");
  ("SshPwData", "F24_SshPwData");
  ("SshKeyData", "F22_SshKeyData");
  ("UserData", "F19_UserData");
  ("VolGroupData", "F21_VolGroupData");
  ("ZFCPData", "F14_ZFCPData")].

(** handlers/f34.py:27-98 (F34Handler.commandMap) *)
Definition F34_commands : list (string * string) := [
  ("auth", "F28_Authconfig");
  ("authconfig", "F28_Authconfig");
  ("authselect", "F28_Authselect");
  ("autopart", "F29_AutoPart");
  ("autostep", "F34_AutoStep");
  ("bootloader", "F34_Bootloader");
  ("btrfs", "F23_BTRFS");
  ("cdrom", "FC3_Cdrom");
  ("clearpart", "F28_ClearPart");
  ("cmdline", "F26_DisplayMode");
  ("device", "F34_Device");
  ("deviceprobe", "F34_DeviceProbe");
  ("dmraid", "F34_DmRaid");
  ("driverdisk", "F14_DriverDisk");
  ("module", "F31_Module");
  ("eula", "F20_Eula");
  ("fcoe", "F28_Fcoe");
  ("firewall", "F28_Firewall");
  ("firstboot", "FC3_Firstboot");
  ("graphical", "F26_DisplayMode");
  ("group", "F12_Group");
  ("halt", "F23_Reboot");
  ("harddrive", "F33_HardDrive");
  ("hmc", "F28_Hmc");
  ("ignoredisk", "F34_IgnoreDisk");
  ("install", "F34_Install");
  ("iscsi", "F17_Iscsi");
  ("iscsiname", "FC6_IscsiName");
  ("keyboard", "F18_Keyboard");
  ("lang", "F19_Lang");
  ("liveimg", "F19_Liveimg");
  ("logging", "F34_Logging");
  ("logvol", "F29_LogVol");
  ("mediacheck", "FC4_MediaCheck");
  ("method", "F34_Method");
  ("mount", "F27_Mount");
  ("multipath", "F34_MultiPath");
  ("network", "F27_Network");
  ("nfs", "FC6_NFS");
  ("nvdimm", "F28_Nvdimm");
  ("timesource", "F33_Timesource");
  ("ostreesetup", "F21_OSTreeSetup");
  ("part", "F34_Partition");
  ("partition", "F34_Partition");
  ("poweroff", "F23_Reboot");
  ("raid", "F29_Raid");
  ("realm", "F19_Realm");
  ("reboot", "F23_Reboot");
  ("repo", "F33_Repo");
  ("reqpart", "F23_ReqPart");
  ("rescue", "F10_Rescue");
  ("rootpw", "F18_RootPw");
  ("selinux", "FC3_SELinux");
  ("services", "FC6_Services");
  ("shutdown", "F23_Reboot");
  ("skipx", "FC3_SkipX");
  ("snapshot", "F26_Snapshot");
  ("sshpw", "F24_SshPw");
  ("sshkey", "F22_SshKey");
  ("text", "F26_DisplayMode");
  ("timezone", "F33_Timezone");
  ("updates", "F34_Updates");
  ("url", "F30_Url");
  ("user", "F24_User");
  ("vnc", "F9_Vnc");
  ("volgroup", "F21_VolGroup");
  ("xconfig", "F14_XConfig");
  ("zerombr", "F9_ZeroMbr");
  ("zfcp", "F14_ZFCP");
  ("zipl", "F32_Zipl")].

(** handlers/f34.py:100-124 (F34Handler.dataMap) *)
Definition F34_data : list (string * string) := [
  ("BTRFSData", "F23_BTRFSData");
  ("DriverDiskData", "F14_DriverDiskData");
  ("DeviceData", "F8_DeviceData");
  ("DmRaidData", "FC6_DmRaidData");
  ("ModuleData", "F31_ModuleData");
  ("TimesourceData", "F33_TimesourceData");
  ("FcoeData", "F28_FcoeData");
  ("GroupData", "F12_GroupData");
  ("IscsiData", "F17_IscsiData");
  ("LogVolData", "F29_LogVolData");
  ("MountData", "F27_MountData");
  ("MultiPathData", "FC6_MultiPathData");
  ("NetworkData", "F27_NetworkData");
  ("NvdimmData", "F28_NvdimmData");
  ("PartData", "F29_PartData");
  ("RaidData", "F29_RaidData");
  ("RepoData", "F30_RepoData");
  ("SnapshotData", "F26_SnapshotData");
  ("SshPwData", "F24_SshPwData");
  ("SshKeyData", "F22_SshKeyData");
  ("UserData", "F19_UserData");
  ("VolGroupData", "F21_VolGroupData");
  ("ZFCPData", "F14_ZFCPData")].

Definition handlers : list (Z * (list (string * string) * list (string * string))) := [
  (RHEL3, (RHEL3_commands, RHEL3_data));
  (FC3, (FC3_commands, FC3_data));
  (RHEL4, (RHEL4_commands, RHEL4_data));
  (FC4, (FC4_commands, FC4_data));
  (FC5, (FC5_commands, FC5_data));
  (FC6, (FC6_commands, FC6_data));
  (RHEL5, (RHEL5_commands, RHEL5_data));
  (F7, (F7_commands, F7_data));
  (F8, (F8_commands, F8_data));
  (F9, (F9_commands, F9_data));
  (F10, (F10_commands, F10_data));
  (F11, (F11_commands, F11_data));
  (F12, (F12_commands, F12_data));
  (F13, (F13_commands, F13_data));
  (RHEL6, (RHEL6_commands, RHEL6_data));
  (F14, (F14_commands, F14_data));
  (F15, (F15_commands, F15_data));
  (F16, (F16_commands, F16_data));
  (F17, (F17_commands, F17_data));
  (F18, (F18_commands, F18_data));
  (F19, (F19_commands, F19_data));
  (F20, (F20_commands, F20_data));
  (F21, (F21_commands, F21_data));
  (RHEL7, (RHEL7_commands, RHEL7_data));
  (F22, (F22_commands, F22_data));
  (F23, (F23_commands, F23_data));
  (F24, (F24_commands, F24_data));
  (F25, (F25_commands, F25_data));
  (F26, (F26_commands, F26_data));
  (F27, (F27_commands, F27_data));
  (F28, (F28_commands, F28_data));
  (RHEL8, (RHEL8_commands, RHEL8_data));
  (F29, (F29_commands, F29_data));
  (F30, (F30_commands, F30_data));
  (F31, (F31_commands, F31_data));
  (F32, (F32_commands, F32_data));
  (F33, (F33_commands, F33_data));
  (F34, (F34_commands, F34_data))].
