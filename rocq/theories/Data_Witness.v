(** For each operating system, client and device of the shipped database a user agent that picks it; the empty text where
    there is none.  Found by search; nothing is assumed about them (Proof_Entries.v checks each). *)
From Verif Require Import Model_Base Model_Blob.
Open Scope blob_scope.

Definition os_agents : list blob := [
  "NuttX"; "Contiki/98"; "Minix 73"; "Plan 9 43"; "Linpus/69"; "ArcaOS"; "GhostBSD/64"; "elementary OS/89";
  "SpreadTrum"; "TitanOS/0."; "KolibriOS"; "Coolita OS QJY/ LiteOS73"; "Coolita OS QJY/01"; "NEXT "; "PortalGo";
  "LeafOS"; "Cloud Phone"; "RisingOS"; "1acm9;x86_64"; "Linux/;-azure"; "ViziOS/67"; "VIZIO-DTV"; "blackPanther OS";
  "WoPhone"; "KIN.Two 18"; "Star-Blade OS"; "Qtopia/39"; "OpenVMS"; "AROS"; "(NEXT)"; "NEWS-OS 16"; "ULTRIX 34";
  "Turbolinux/81"; "Joli OS/85"; "GENIX 25"; "gNewSense/(35"; "Geos 30"; "MOT-LinuxOS/"; "Baidu Yi"; "Fedora/1.3.rs0";
  "Linux/8.--pve"; "Linux/1.0-26stab43"; "rocky/79"; "clear-linux-os/9."; "alpine/36"; "scientific/48"; "eulerosv6r8";
  "loongnix-server/82"; "Linux/1.6.lns3.loongarch64"; "AOSC OS"; "Ladybird/"; "Helix Phone"; "Armadillo"; "Webian";
  "LinuxLiri/"; "FRITZ!OS"; "UOS"; "Raspbian/45"; "Raspbian"; "BrightSign/W/54"; "BrightSign/64"; "LuneOS";
  "Linux/3.3.el2uek"; "1kali9"; "TiVoOS/37"; "VIDAA/92"; "PICO/OS5"; "RED OS; Linux"; "Mikrotik/1.x"; "FINNEY U1";
  "Nova; Linux"; "Android 10/bliss_maple"; "atlinux6"; "Linux/ aws"; "Linux/1-c9"; " COS like Android";
  "Android 2; ClearPHONE"; "Plasma Mobile"; "KreaTV/0.0.0.0"; "KreaTV/63"; "Linux 1; Opera TV/"; "OPR/1TV Store/13";
  "Grid OS 80"; "CaixaMagica"; "Mageia; Linux"; "WH2."; "Zeasn/TBrowser/2.0"; "Zeasn/"; "HbbTV/aMaple"; "Tizen";
  "HbbTV/ Samsung"; "Android 41-RT"; "YunOS"; "Windows Phone;FBSV/64"; "wds0."; "XBLWP7"; "Windows CE"; "IEMobile";
  "Windows NT 6.2; ARM;"; "Windows NT 6.3; ARM;"; "Windows IoT 10.0"; "KAIOS"; "OpenHarmony"; "HarmonyOS"; "Hmos/1";
  "RazoDroiD"; "MildWild"; "CyanogenMod"; "MocorDroid"; "FydeOS"; "YQ605;"; "Fire OS"; " KFA"; "cordova-amazon-fireos";
  "revengeos_x2"; "Lineage_8"; "lineage_G"; "Android 8; rr_fortuna3g"; "RemixOS"; "FreeBSDaAndroid"; "SM-R9";
  "SeewoOS x86_64 06"; "CrOS k 63"; "Android 9; rex)"; "Linux; Andr0id;4"; "Android 6/wv-atv"; " AndroidTV";
  "Android-59"; "Android Marshmallow"; "Podimo/Android"; "StarOS/8"; "Pinterest for Android/; 1)";
  "Android; 9; Mobile;"; "Android;2;API"; "Android (85/8;"; " 3) AppleWebKitROBLOX Android App"; "Adr6";
  "Allview_TX1_Quasar 7"; "Android: 2"; "FB4AFBSV/0;"; "TwitterAndroid;/8"; "(Android:); API 7"; "Android-4;"; " Adr ";
  "okhttp"; "Linux; diordnA;0"; "A/9/"; "Jolla"; "AmigaOS08"; "AmigaOS"; "ThreadX"; "Nucleus"; "MTK"; "MRE/4.8;MAUI";
  "MRE\\63"; "aMRE"; "Linspire"; "LindowsOS"; "Zenwalk GNU Linux"; "Linux1kanotix"; "moonOS/46"; "Foresight Linux";
  "Pardus/96"; "Librem 5"; "uclient-fetch"; "RokuOS/;RokuOS 97"; "Roku/"; "Roku; AP; 59"; "RokuBrowser/1(TV-g-86)";
  "dvkbuntu"; "Helio/93"; "HasCodingOs 4."; "PCLinuxOS/0."; "Ordissimo"; "WinFenix"; "TOS; Linux"; "Maemo";
  "ArchLinux"; "VectorLinux"; "sles/11"; "rhel 90"; "rhel"; "CentOS Stream 8"; "centos/08 "; "  el4/centos";
  "CentOS Linux 5"; "Fedora/;1fc2"; "Mandriva/1mdv76"; "Linux Mint/6"; "Zorin OS 3"; "Ubuntu/hardy"; "debian/stretch";
  "Ubuntu/feisty"; "Ubuntu-edgy"; "Ubuntu-dapper"; "Ubuntu/breezy"; "Ubuntu 24"; "Linux; SUSE/87"; "Deepin/05"; "SUSE";
  "OS ROSA; Linux"; ""; "hpwOS"; "Palm"; "Xiino"; "MorphOS"; "FBWaFBSV/5;"; "Windows OS: 9"; "Windows;8;"; "mingw32";
  "Windows/3.1"; "Windows-11-"; "WinNT 10.0"; "win10"; "Windows/2025Server"; "Windows/2012ServerR2"; "Windows 8.1";
  "Windows/2012Server"; "Windows 8"; "Windows/2008ServerR2"; "win7"; "CYGWIN_NT-6.0"; "CYGWIN_NT-5.2"; "Windows-XP";
  "Windows 2000"; "WinNT"; "Windows ME"; "Win98"; "Win32"; "Windows 3.1"; "MSDW"; ""; "Haiku"; "AppleTVCPU OS 9.6";
  "Apple TV; iOS 9_8"; "iOS/9.1 AppleTV"; "tvOS9.9"; "AppleTV"; "watchOS"; "Apple Watch"; "FBMD/iPad;FBSV/2616;";
  "iPad 26.6"; "iPad6/15.3"; "iPad; iOS 14"; "iOS 26.8 iPad"; "iPhone OS,15.8 iPad"; "iphoneos26.7; iPad";
  "Pinterest for iOS/iPad; 3)"; "iPad/9.1"; "iPad9_48"; "iphoneos19.6; iPhone"; "Pinterest for iOS/iPhone; 2)";
  "iOS 00)"; "iPhone OS 783"; "iOS_192"; "iOS 4"; " iOS,95"; "Mana/1 Darwin/01"; "iPhone/4/"; "iOS1.9.0"; "iOS4.60";
  "FBMD/iPhone;FBSV/07;"; "FBIOSFBSV/6;"; "iPhone OS,6aiPod"; "iPad;; 7.;"; "iPhonea; Version 61"; "OS=iOS;OSVer=93;";
  "os=Apple-iOSaosversion=43/"; "iPad"; "dv(iPh/ov(1);"; "(iOS)"; ""; "iOS Version ."; "Sonos/1(ICRU_"; "-iOS";
  "Safari"; "Macintosh;Mac OS X (24);"; "Mac OSX"; "Mac 4_2"; "Mac-95"; "Macintosh; OS X 00"; "OSX/57"; "PPC";
  "Fuchsia"; "Blackberrye/29"; "RIM Tablet OS 52"; "QNX"; "BlackBerry"; "bPod"; "BeOS"; "Symbian/3/NokiaBrowser/7.3";
  "Symbian/31NokiaBrowser/7.4"; "Symbian/3"; "S60"; "Series40"; "SymbianOS/99"; "MeeGo"; "Symbian"; "Nokia";
  "Mobile;1Firefox/5.7"; "RISC OS"; "Inferno"; "bada"; "REX; U;"; "BMP"; "GoogleTV"; "WebTV/54"; "SunOS"; "AIX";
  "HP-UX"; "BSD Four"; "ElectroBSD"; "FreeBSD"; "NetBSD"; "OpenBSD"; "DragonFly"; "Syllable"; "IRIX"; "OSF1";
  "Nintendo Wii"; "PlayStation/; Linux 90"; "PlayStation0"; "Xbox"; "Nitro"; "PlayStation Vita"; "OS/2; Warp 75";
  "OS/2"; "Linux/8."; "X11"; "J2ME"].
Definition client_agents0 : list blob := [
  "NetFront"; "Edge/"; "Trident"; "Chrome/"; "WebKit"; "Presto"; "Goanna"; "Clecko"; "Gecko"; "KHTML"; "NetSurf";
  "Servo"; "Ekioh"; "xChaos_Arachne"; "LibWeb+LibJs"; "ArkWeb/"; "Maple 76"].
Definition client_agents1 : list blob := [
  "FireSendBrowser/8"; "buscari/2"; "ArtisReader/2"; "SamanthaDoubao/5"; "HeyTapBrowser/."; "QuarkPC/2.9";
  "AltiBrowser/9"; "Maple 40"; "Singlebox/6.4"; "RCATorExplorer"; "TQBrowser"; "XXXAndroidApp"; "ProxyFox";
  "PrivacyBrowser"; "TUSK/27"; "Dezor/57"; "OJR Browser/3"; "SecureBrowser/7"; "Veera/2"; "Ninesky/1"; "Perk/3";
  "Presearch (Tempest)"; "QtWeb Internet Browser"; "UPhoneWebBrowser58"; "MIB/72"; "iNet Browser"; "Prism/3";
  "Awesomium/4"; "Roccat"; "Swiftweasel"; "wkbrowser 61"; "KUN/03"; "NaenaraBrowser"; "nook browser";
  "xChaos_Arachne/5.6.6"; "WeltweitimnetzBrowser/9.6"; "Ladybird/5.."; "Kitt/6.5"; "sppm_bizbrowser"; "SkyLeap/0.0";
  "MaxBrowser/2.2"; "YouBrowser/6.9"; "MixerBox-Browser"; "EudoraWeb 1."; "Eolie"; "w3m/17"; "Classilla/";
  "WebianShell/01"; "Vonkeror"; "Wyzo/4.5"; "Liri/1.9"; "Columbus/6.3"; "GreenBrowser"; "K-Ninja/9.9"; "PB4.8";
  "EastBrowser/2.3"; "Qiyu/6.6"; "WebDiscover/8.2"; "LeganBrowser/7.4"; "Acoo Browser"; "Aplix__browser/7.5";
  "Mogok/1.7"; "TrueLocationBrowser/7.."; "DiigoBrowser"; "OnBrowserLite3.9"; "Bluefy/2.4"; "Vision-Browser";
  "SurfyBrowser/70"; "18+/."; "GoKu-iOS/16"; "Ask.com Mobile Browser"; "Bang/03"; "ManagedBrowser"; "Lotus/10";
  "JuziBrowser"; "Ninetails"; "Wexond"; "catalyst"; "Impervious"; "RakutenBrowser"; "RakutenWebSearch"; "VibeMate";
  "yixia.browser/com.donerbrowser.app/"; "tararia/0.4"; "SberBrowser/1.6"; "Raspbian Chromium/"; "Quick Search TV";
  "Skye/3.9"; "VD/5"; "[PB/81]"; "[HS/2]"; "[PB/0]"; "Normalized iPad (iOS Safari)"; "fGet/"; "Nuviu/"; "DoCoMo/";
  "com.airfind.browser/"; "ArcMobile2"; "Nuanti/7.3"; "RokuBrowser/8.6"; "PicoBrowser/7.."; "Alva/1.1"; "Norton/8.0";
  "Odd/8.4"; "Safari/537.36 Browser"; "YAGI/4.."; "InspectBrowser"; "Keepsafe Browser"; "Vast Browser/4.8"; "bloket";
  "U Browser8.9"; "Chrome/0.4aTeslaBrowser/"; "Chrome/6../Sparrow"; "Sparrow/1CFNetwork"; "Lilo/7.7";
  "Lilo/ CFNetwork"; "lexi/26"; "Floorp/68"; "SurfBrowser/50"; "Decentr"; "youcare-android-app"; "youcare-ios-app";
  "ABB/20"; "2/tclwebkit2"; "HiBrowser/97"; "CYBrowser/20"; "Chrome/; SiteKiosk 38"; "SiteKiosk 41";
  "ReqwirelessWeb/46"; "T+Browser/42"; "Private Browser/96 Chrome/"; "ChanjetCloud/87"; "SushiBrowser/73";
  "dBrowser/20"; "LTBrowser/33"; "lagatos-browser/70"; "psi-secure-browser/05"; "Harman_Browser/98";
  "bonsai-browser/46"; "spectre-browser/46"; "FlashBrowser/19"; "Secure/"; "Arvin/65"; "Version/;Chrome/;EdgW/42";
  "Mandarin Browser/43"; "Torrent/33"; "Helio/37"; "7654Browser/25"; "Qazweb/09"; "Degdegan/78"; "JavaFX/93";
  "Chedot/83"; "Chrome/5.9 (Chromium GOST)"; "DeledaoFamily/53"; "HasBrowser/76"; "Byffox/27";
  "Chrome/9.. AgentWeb1UCBrowser"; "DotBrowser/29"; "CravingExplorer/51"; "DeskBrowse/74"; "Lolifox/43";
  "PiBrowser/15"; "qutebrowser/5.7 Chrome"; "qutebrowser"; "flast/27"; "PolyBrowser/02"; "ChromeaBriskBard/47";
  "BriskBard"; "GinxDroid/56"; "Avira/2."; "VenusBrowser/07"; "Chrome Otter"; "Otter"; "Chrome1Smooz/50"; "Smooz/47";
  "BanglaBrowser/0.1"; "Cornowser/32"; "Orca/47"; "Android 6; Flow) AppleWebKit/537/Chrome/690"; "Flow/64"; "Ekioh/34";
  "xStand/33"; "Biyubi/60"; "Perfect/55"; "Browser/Phantom/V75"; "AwoX Browser"; "Zetakey/09"; "PlayFreeBrowser/";
  "chimlac/83"; "Odin/41"; "Tbrowser/17"; "com.tcl.browser"; "WhaleBrowser/45"; "SFive/a Chrome/38"; "SFive_IOS/56";
  "Navigateur web/"; "Sraf"; "SeewoBrowser/"; "Kode/"; "UR/9."; "OceanHero/6"; "Chrome// SLBrowser/"; "SLBrowser/";
  "Browzar"; "Stargon/"; "NFSBrowser/"; "Borealis/12"; "YoloBrowser/"; "PHX/"; "PrivacyWall/"; "Ghostery"; "Cliqz";
  "Firefox/YaaniBrowser"; "YaaniBrowser"; "SEB/"; "Colibri/"; "Xvast/"; "TungstenBrowser/"; "Lulumi-browser/";
  "ybrowser/"; "iLunascapeLite/"; "Chrome// Lunascape"; "Lunascape"; "Polypane/"; "OhHaiBrowser/"; "Sizzy/";
  "GlassBrowser/"; "ToGate/"; "AirWatchBrowser/"; "AOL 19"; "ADG/"; "Elements Browser/"; "Light/87";
  "Valve Steam GameOverlay/"; "115Browser/"; "Atom/"; "Wolvic/5.9"; "Mobile VR1Firefox"; "AVG/25"; "AT/25"; "Start/";
  "Lovense"; "AirSearch"; "Ordissimo"; "CCleaner"; "AlohaLite"; "TaoBrowser"; "Atlas/00"; "Falkon"; "mCent";
  "SalamWeb"; "BlackHawk"; "Minimo"; "WIB/72"; "Origyn Web Browser"; "Kinza"; "Beamrise"; "Faux"; "splash Version";
  "MZBrowser"; "COSBrowser"; "Crusta"; "Hawk/TurboBrowser"; "Hawk/QuickBrowser"; "FreeU"; "NoxBrowser"; "Basilisk";
  "SputnikBrowser"; "TNSBrowser"; "OculusBrowser"; "JioPages"; "SY/37 Chrome/"; "Chrome/a Hola"; "SlimBoat/09";
  "Slimjet/92"; "7Star/74"; "MxNitro/2."; "HuaweiBrowser"; "HBPC/35"; "ZTEBrowser/"; "VivoBrowser"; "RealmeBrowser";
  "BeakerBrowser"; "QwantiOS/32"; "Chrome/QwantMobile"; "QwantMobile"; "Qwant/03"; "TenFourFox"; "Chrome/  AOLShield";
  "AOLShield"; "Edge/89 CFNetwork"; "Edge 00"; "EdgiOS/45"; "EdgA 52"; "Edg 92"; "Browser/harmony360Browser/91";
  "QIHU 360EE"; "Chrome/Safari/537.36/03"; "360 Aphone Browser"; "SailfishBrowser"; "IceCat"; "Mobicip"; "Camino";
  "Waterfox"; "VertexSurf/5.6"; "Chrome/  AlohaBrowser"; "AlohaBrowser"; "Aloha/"; "Chrome/ Tenta/75"; "Tenta/27";
  "Chrome;ASW"; "ASW"; "Android 8; EKxwClBYFT; U; /) AppleWebKit/ Chrome/"; "Epic/4."; "Fennec";
  "FirefoxTablet browser 9."; "Maemo Browser"; "Deepnet Explorer "; "AvantBrowser"; "OppoBrowser";
  "Chrome/0.8 MRCHROME"; "AtomicBrowser"; "Bunjalloo"; "Chrome/7.1Brave/"; "Brave"; "Iridium"; "Iceweasel";
  "WebPositive"; "GoannaPaleMoon"; "PaleMoon"; "CometBird"; "IceDragon"; "Flock"; "JigBrowserPlus/"; "jig browser";
  "Kapiko"; "Kylo"; "Origin/"; "Cunaguaro"; "TO-Browser/TOB24"; "Kazehakase"; "ArcticFox"; "Mypal"; "Centaury";
  "Klar/7."; "Cyberfox"; "Firefox/7.8(Swiftfox)"; "UCBrowserHD/36"; "UCMini"; ""; "Chrome/uc mini browser"; "UCTurbo";
  ""; "ArkWeb/58 UCBrowser"; "UCBrowser"; "UCWEB"; "UC AppleWebKit"; "UC%20Browser/ CFNetwork/ Darwin/a";
  "ChromeaUC Browser0."; "Firefox;UCKai/27"; "MobileServoFirefox"; "MobileFirefox"; "FxiOS/14"; "ServoFirefox";
  "Firefox"; "Lorentz 40"; "ANTFresco"; "ANTGalio"; "Escape"; "RockMelt"; "Fireweb Navigator"; "Fireweb"; "Netscape";
  "Polarity"; "QupZilla"; "Dooble"; "Whale/17"; "Obigo"; "Teleca"; "Chrome/  OPX"; "OPX";
  "OperaGX/aCFNetwork/aDarwin/"; "Mobile/OPR/34"; "MMS/76"; "OMI/51"; "Opera%20Touch/;CFNetwork"; "";
  "Opera/1CFNetwork"; "OPT/1."; "Opera/0.1 Opera Mobi"; "OperaMini/75"; "OperaMini1Version/84"; "OPiOS/95";
  "Opera%20Mini/52 CFNetwork"; "Opera;Edition NextaVersion/14"; "OPR/8.3 Edition Next"; "OPR/69"; "Chrome1Opera/";
  "rekonq"; "CoolNovo"; "Dragon/78"; "ChromePlus"; "Conkeror"; "Konqueror"; "bdhonorbrowser/08"; "BaiduHD"; "Spark/3";
  "YaBrowser/9 YaApp_iOS"; "iPadYaBrowser/8"; "YaBrowser/4 (lite"; "YaBrowser/5corp"; "YaBrowser/5";
  "YaSearchBrowser/6"; "Viv/37"; "TweakStyle"; "Chrome/Midori Browser/03"; "Midori"; "Mercury/"; "Chrome;Maxthon/1675";
  "ChromeaMaxthon/7.8"; "MXiOS "; "MyIE2"; "Puffin/20FP"; "Puffin/72LD"; "Puffin/32"; "MobileIron"; "ChromeIron";
  "Iron/26"; "Epiphany"; "LieBaoFast"; "LBBrowser"; "SE 58"; "QQBrowserLite/9"; "QQBrowser/Mini"; "QQBrowser";
  "MIUIBrowser"; "CocCoc"; "Ddg/1"; "ddg_android/9"; "SamsungBrowser"; "SFB/42"; "com.browser.tssomas"; "EUI Browser";
  "UBrowser"; "Streamy"; "isivioo"; "Rocket/97"; "Web Explorer/1.9 Chrome"; "webexplorer/3"; "Chrome;SznProhlizec/88";
  "SznProhlizec/53"; "SogouMobileBrowser/29"; "Mint Browser/92"; "Ecosia ios@10"; "ACHEETAHI"; "Chrome/a LeBrowser";
  "LeBrowser"; "Kiwi Chrome"; "Mb2345Browser/96"; "Silk/83 like Chrome"; "Silk"; "iBrowser/Mini0.9"; "iBrowser/";
  "IBrowse"; "UP.Browser"; "Openwave"; "OneBrowser"; "GoBrowser"; "WicKed"; "Series60/5.0"; "Series60/64";
  "S40OviBrowser/39"; "Nokia"; "Sleipnir"; "NTENTBrowser"; "TV Bro/84"; "Quark"; "MonumentBrowser"; "BlueBrowser";
  "JAPAN Browser"; "OpenFin/8."; "SuperBird"; "Soul"; "LG Browser/33"; "QtWebEngine/95";
  "iPad; like Mac OS X Chrome Mobile/KVev9 Safari/"; " wv) Chrome"; "CrMo"; "CriOS"; "Chrome Mobile"; "chromeframe";
  "Chromium"; "lChromium"; "HeadlessChrome"; "Chrome"; "PocketBook/"; "SLPBrowser"; "$Tizen 3.2; Version/23 TV";
  "Blazer"; "Pre/70"; "webOS/57"; "WebPro"; "Palmscape"; "Jasmine"; "Lynx"; "NCSA_Mosaic"; "VMS_Mosaic"; "ABrowse";
  "amaya"; "AmigaVoyager"; "Amiga-Aweb"; "Arora"; "Beonex"; "bline"; "BrowseX (16"; "Charon"; "Cheshire"; "dbrowser";
  "Dillo"; "Dolfin"; "Elinks"; "Element Browser"; "eZBrowser"; "Firebird"; "Fluid"; "Galeon"; "Google Earth Pro";
  "GoogleEarth/0.0{client:Pro"; "GoogleEarth"; "HotJava"; "iCabMobile"; "iCab"; "Crazy Browser 1."; "IEMobile/26";
  "MSIE 5.8_XBLWP7"; "MSIETrident/4.0"; "MSIETrident/5.0"; "MSIETrident/6.0"; "Trident/7.0"; "MSIE 09"; "IE 61";
  "MSPIE 45"; "Kindle/1."; "K-meleon"; "Links"; "LuaKit"; "OmniWeb"; "Phoenix"; "NintendoBrowser";
  "NetFrontLifeBrowser"; "Browser/NF54"; "NetFront"; "NINTENDO 3"; "NetPositive"; "Odyssey Web Browser"; "OffByOne";
  "Oregano"; "Polaris"; "SEMC-Browser"; "Shiira"; "Skyfire"; "Snowshoe"; "Sunrise"; "WeTab-Browser"; "Xiino"; "BB10";
  "Browlser/87"; "Android"; "Coast"; "Opera%20Coast/ CFNetwork/ Darwin/a"; "Surf"; "Safari%20Technology%20Preview/60";
  "MobileSafari/96"; "NetworkingExtension/  Network/  iOS/19"; "MobileSafari/"; "iPad"; "Safari7";
  "NetworkingExtension/29a CFNetwork"; "Macintosh"; "Dorado"; "NetSurf"; "Uzbl"; "SimpleBrowser"; "Zvu";
  "GOGGalaxyClient/"; "MAUI-Browser"; "SP%20Browser/7."; "Gecko"].
Definition client_agents2 : list blob := [
  "Akregator"; "Apple-PubSub"; "BashPodder"; "Breaker/8"; "FeedDemon"; "FeeddlerRSS"; "QuiteRSS"; "gPodder/0";
  "JetBrains Omea Reader"; "Liferea"; "NetNewsWire"; "NewsBlur iPad App"; "NewsBlur/10"; "newsbeuter"; "PritTorrent/0";
  "Pulp 65"; "ReadKit"; "Reeder 42"; "RSSBandit"; "RSS Junkie"; "RSSOwl"; "Stringer"; "castero 3.2"; "castget 8.9";
  "Newsboat/e"; "Playapod/4.6"; "PodPuppy 8.0"; "Reeder/5"].
Definition client_agents3 : list blob := [
  "PhantomJS"; "IPinfoClient//06"; "kiwi-tcms/61"; "tcms-api/99"; "Fuzz Faster U Fool v71"; "Slim Framework";
  "msray-plus"; "HTMLParser"; "got ("; "Typhoeus"; "req/v7"; "quic-go-HTTP/3"; "azure-data-factory"; "Dart/94";
  "r-curl"; "python-httpx"; "fasthttp"; "geoipupdate"; "PHP-Curl-Class"; "Cpanel-HTTP-Client"; "AnyEvent-HTTP";
  "SlimerJS/62"; "Jaunt/09"; "Cypress/67"; "Wget"; "Guzzle"; "Symfony HttpClient/"; "curl"; "python-requests";
  "Python-httplib2"; "Python-urllib"; "Apache-HttpClient"; "Java-http-client"; "Java02"; "perlclient";
  "grpc-java-okhttp/7"; "okhttp/6"; "okhttp3-3"; "HTTP_Request2"; "Mechanize"; "aiohttp"; "Google-HTTP-Java-Client";
  "WWW-Mechanize"; "Faraday"; "Go "; "urlgrabber"; "libdnf"; "HTTPie"; "rest-client/2.0 ruby"; "RestSharp/71";
  "scalaj-http/97"; "REST::Client/9"; "node-fetch"; "electron-fetch"; "ReactorNetty/40"; "PostmanRuntime"; "insomnia";
  "Jakarta Commons-HttpClient/2"; "WinHttp.WinHttpRequest/3"; "WinHTTP"; "Embarcadero URI Client/4"; "Mikrotik/6";
  "GRequests"; "akka-http/8"; "aria2"; "uTorrent/"; "gvfs/"; "uclient-fetch"; "cpprestsdk/4"; "lua-resty-http/7angx_";
  "unirest-java/5"; "jsdom/6"; "hackney/2"; "go-resty/8"; "pa11y/5"; "ultimate_sitemap_parser/0"; "Artifactory/.";
  "BSRPC 7"; "Buildah/."; "buildkit/2"; "containerd/6"; "containers/3"; "cri-o/3"; "docker/2";
  "go-containerregistry/v8"; "libpod/6"; "skopeo/."; "Helm/1"; "harbor-registry-client"; "axios"; "CarrierWave/3..";
  "Deno/6.."; "Down/4.9"; "Lavf/"; "FileDownloader/6.3"; "git-annex/0.4"; "GStreamer souphttpsrc/"; "HTTP-Tiny/6.8";
  "KaiOS Downloader"; "libsoup/4.2"; "Android.LVLDM"; "PRDownloader"; "reqwest/9.3"; "resty-requests"; "Ruby";
  "SafariViewService/8.6"; "undici"; "URL/Emacs Emacs/8.6"; "FDM/2"; "OkDownload/."; "Libsyn4peek";
  "AppleCoreMedia/1.0.0"; "cpp-httplib"; "Definitely-Not-Requests"; "Stealer 1"; "Mandrill-PHP"; "Podgrab";
  "Podcast ProviderRadio Downloader 7"; "ESP32 HTTP Client/6"; "babashka.http-client"; "http.rb"; "node-superagent";
  "CakePHP"; "request.js"; "qbhttp"; "httprs"; "Boto3"; "Python-xmlrpc"; "ICAP-Client-Library"; "Cygwin-Setup";
  "azsdk-python-storage-blob"; "trafilatura"; "sqlmap"; "vimeo.php"; "PHP84"; "go-network-v49"; "Bun/5.1";
  "Apidog/6.4"; "webchk v7.5"; "MatomoTrackerSDK/88"; "libHTTP/97"; "BIC Tracker"; "Lodestone PHP Parser"; "Hubot/80"].
Definition client_agents4 : list blob := [
  "Audacious"; "Echo/"; "Banshee"; "Boxee"; "Clementine"; "Deezer"; "iTunes"; "FlyCast"; "foobar2000"; "MediaMonkey";
  "Miro"; "NexPlayer"; "Nightingale"; "QuickTime"; "Songbird"; "SubStream"; "Sonos/"; "VLC"; "Winamp";
  "J. River Internet Reader/1.8"; "NSPlayer"; "XBMC"; "Kodi"; "stagefright"; "GoogleChirp"; "Music Player Daemon ";
  "mpv "; "HTC Streaming Player"; "MediaGo"; "MPlayer/9.2"; "Downcast/"; "Juice/6"; "just_audio/2.0"; "Kasts/7.9";
  "MixerBox/3"; "MusicBee"; "amarok/9.2"; "Hubhopper/2"; "StudioDisplay/9.."; "JHV/SWHV-7";
  "com.devcoder.iptvxtreamplayer"; "DIGA"; "YouView"].
Definition client_agents5 : list blob := [
  "jpameblo;1.."; "CSDNApp/7.5"; "binu"; "KPN_Veilig/6.1"; "NAVER/3. CFNetwork"; "NAVER(inapp; search; a; 71;a)";
  "NAVER(inapp; search; ;; 83)"; "NAVER(inapp; naverdicapp; 1; 75)"; "Chrome/Soldier_9"; "AndroidDownloadManager";
  "News Version"; "appletv.client"; "AudienceNetworkForAndroid;FBAV"; "mLiteFBAV"; "MESSENGERFBAV"; "MessengerForiOS";
  "GroupsForiOSFBAV"; "FBAN/EMA1FBAV"; "FBAN/FBPageAdmin1FBAV"; "FBAV"; "FBAN/"; "Instagram "; "Barcelona/"; "FeedR";
  "com.google.android.apps.searchlite"; "NSTNWV"; "com.google.android.apps.photos";
  "com.google.android.apps.magazines"; "com.google.GooglePlus"; "Google.DriveExtension"; "OPA/2"; "com.google.Maps/.";
  "com.google.android.googlequicksearchbox"; "wxwork/57"; "MicroMessenger/1"; "WeChat/6"; "WeChatShareExtensionNew/0";
  "DingTalk/5"; "__weibo__2__"; "Pinterest"; "Podcatcher Deluxe"; "com.google.ios.youtube"; "YouTube/3K";
  "RutubeBlackAndroid"; "com.netflix.mediaclient"; "Downcast/"; "Flipp-iOS//CFNetwork"; "Flipp-iOS/93"; "WhatsApp";
  "WhatsApp/1 CloudAPI"; "WhatsApp/3"; "YoWhatsApp2Plus"; "YoFMWhatsApp"; "GBWhatsApp"; "YoYoWhatsApp"; "ANWhatsApp";
  "Telegram/45 CFNetwork"; "YouTubeMusic/"; "Line 4"; "Instacast/9 CFNetwork/3 Darwin/1"; "Pocket Casts"; "Podcat/3";
  "BeyondPod"; "Overcast/9"; "CastBox"; "Podkicker/1"; "PodcastRepublic/4"; "Castro/6"; "Castro 2 1/8 Like iTunes";
  "Castro 2"; "DoggCatcher"; "Podcast Addict"; "Podcat%202/0 CFNetwork"; "iCatcherF5"; "YelpApp/9";
  "jp.co.yahoo.ipn.appli/5"; "RSSRadio/"; "SogouSearch Android1 version"; "NewsArticle/"; "tieba/";
  "com.douban.group/"; "GSA/"; "Google/ CFNetwork"; "GoogleLens/"; "Flipboard/"; "lite baiduboxapp/"; "baiduboxapp/";
  "baiduinput/"; "PetalSearch/"; "Crosswalk/"; "Twitter for iPhone"; "Twitter/2"; "TwitterAndroid"; ""; "Gaana/";
  "TopBuzz/5"; "Snapchat6"; "CronetSnapDevSheldon"; "AhaRadio2/8"; "Unibox/9"; "strimio-desktop/"; "UnityPlayer/5";
  "UCURSOS/v3"; "RobloxApp/7"; "Viber"; "Siri/1"; "LinkedIn"; "Instapaper/7"; "Keeper/1"; "Skyeng Teachers/2";
  "Kik/3 (Android"; "Procast"; "DeviantArt/6"; "discord/.;Electron"; "discord/3"; "Covenant%20Eyes/8"; "HP%20Smart/0";
  "Bitsboard/9"; "Betbull/6"; "U-Cursos/."; "1PasswordThumbs/6"; "Project 1.";
  "Mozilla/4.0 (compatible; ms-office; MSOffice 8"; "Microsoft Office SyncProc 7"; "Microsoft Lync 9";
  "Microsoft.Data.Mashup"; "Wpsoffice/2"; "OneDriveiOSApp/4"; "Microsoft Office Existence Discovery"; "officemobile .";
  "Skype/6"; "OC/3 (Skype for Business)"; "iPhoneLync/7"; "WebexTeams"; "GroupMe/4"; "AppName/trill app_version/.";
  "trill_"; "ultralite app_version/1"; "aweme/9"; "Copied/07 CFNetwork"; "Pic%20Collage/92 CFNetwork";
  "Papers/50 CFNetwork"; "RoboForm/49 CFNetwork"; "Slack/92 CFNetwork"; "com.tinyspeck.chatlyio/45"; "KAKAOTALK ";
  "ShopeeVN/2"; "SPORT1/7"; "Clovia/8"; "ShowMe/."; "Wattpad/4"; "WSJ/7"; "WH%20Questions/8"; "whisper/4"; "Opal/9";
  "Zalo/4"; "Yandex/9"; "ZenKit/."; "Zoho%20Chat/2"; "Thunder/27"; "CGNBrowser/17"; "<Podbean/1App 82";
  "TuneIn Radio Pro/03"; "TuneIn"; "devcasts/70"; "Swoot/98"; "RadioPublic/iOS-5.."; "Podimo/86";
  "com.evolve.podcast/17"; "Rocket.Chat/84"; "Pandora Audio/Android"; "WirtschaftsWoche-iOS-7."; "TVirl/00";
  "chMate/39"; "2tch/40"; "Ciisaa/42"; "BB2C 11"; "twinkle/24"; "JaneStyle_iOS/42"; "BNC/1(Android 21)"; "Binance/11";
  "ru.mail.my/27"; "OKiOS/5"; "yakyak/79"; "Teams/27"; "TeamsMobile-iOS"; "SohuNews/5.3"; "StreamlabsOBS/40";
  "Blitz/9"; "OfferUp/3"; "Vuhuv/4"; ";/gftv200-6-"; "QuickCast"; "Aliexpress/8"; "AliApp(LA_2.2"; "AliApp(TB 7.5";
  "AliApp(AP_8.0"; "Blue Proxy/7"; "ntvmobil/"; "COAF%20SMART%20Citizen/"; "GitHubDesktop/8"; "logioptionsplus/6";
  "EmbyTheater/3"; "y8-browser/8"; "NuMuKiBrowser/4"; "LandisGyrAIMbrowser/35"; "Code/39"; "Wireshark/63"; "Magician";
  "Razer Central PC"; "git/34"; "GooglePodcasts/2.1"; "Microsoft-CryptoAPI/61"; "Microsoft-Delivery-Optimization";
  "Windows-Update-Agent"; "MSDW"; "qBittorrent/5."; "CPUID"; "AIDA64"; "HandBrake Win Upd 7."; "CCleaner, 05";
  "Microsoft Edge Update/68"; "Google Update/24"; "Bose Music"; "HikConnect"; "Cortana 90"; "Opera News/18";
  "Acrobat/2."; "CreativeCloud/15"; "rekordbox/44"; "Microsoft-WNS/39"; "Microsoft BITS/94"; "ERA Agent Update";
  "EpicGamesLauncher/89"; "Microsoft-WebDAV-MiniRedir"; "Battle.net/61"; "Bookshelf-Android/13"; "RaveSocial/48";
  "wordcookies/04"; "com.meevii.bibleKJV/14"; "MetaTrader 5 Terminal/95"; "com.paint.bynumber/8."; "zepeto_global/24";
  "Jungle Disk Workgroup HTTP"; "mirall/91"; "GoNativeIOS/53"; "Pandora/55"; "Blackboard/"; "TIM/23"; "TencentDocs/04";
  "QQ/02 V1_IPH_SQ_"; "QQMusic/19"; "etoro-cordova-app"; "Avid Link Desktop App/72"; "Netflix/24";
  "GoogleTagManager/19"; "Adobe Synchronizer 9."; "BlueStacks/08"; "WindowsPowerShell/77"; "PAN GlobalProtect/13";
  "Theyub v52"; "BBCNewsUKWatchApp/51"; "TradingView/62"; "Instabridge"; "Be Focused/"; "Focus Matrix/";
  "Focuskeeper/"; "WindowsStoreSDK"; "Asus Update/3.."; "imoAndroid/2004.."; "imoAndroid/9.3"; "Sapphire/5.1";
  "BingWeb"; "NewsSapphire/8.."; "CopilotSapphire/7.7"; ";HiSearch/8.4"; "RDDocuments/6.1"; "FSCDCSafe/2.7";
  "Twitterrific"; "UconnectLive"; "Wayback%20Machine%20Extension"; "com.Nanoteq.QmunicateH10p//3.8 ("; "NET.mede";
  "My%20Bentley"; "Skyeng%20App"; "Skyeng%20Teachers"; "Millennium/"; "MBolsa"; "MEmpresas"; "OrangeRadio/4.2";
  "Radio%20Italiane/9.5"; "com.apple.Safari.SearchHelper/9.0"; "Citrix%20Viewer"; "com.mercbank.s1mobileipad";
  "D-Stream%20Air"; "ExpediaBookings"; "Windows Antivirus 3.7"; "Reflect"; "Opera autoupdate agent"; "Ballz/1.1";
  "rnps-action-cards/2.4"; "PlexMediaServer/9.5"; "FreeSafeIP"; "Surfshark/0"; "APP/yym-hago-and4.0"; "Azureus 1.0";
  "IPM"; "Adobe NGL"; "/Satoshi:5.5/"; "/Shibetoshi:9.5/"; "Amazon.com/9.1"; "de.mobile.android.app/4.6";
  "de.mobile.android.app/ (1.8)"; "jitsi-meet/"; "Waste My Time! Extension/6.0"; "1Password/7.."; "iOSStartsidenApp";
  "HisThumbnail"; "OneSearch/6.5"; "anonymized by Abelssoft"; "Anonymisiert durch AlMiSoft"; "DaumApps/"; "AT&T TV";
  "Reddit/Version 4.9/"; "TuyaSmart/2.1"; "spotify_"; "Harley"; "Klarna/"; "R/15"; "RadioAppFree/"; "Audible/";
  "Overcast (+http://overcast.fm/; iOS podcast"; "HTTPrequestmaker"; "bonprix mobile App 6.6"; "Safari Quora 7..";
  "RelesysApp/7.5 (9) net.relesysapp.jj2go"; "MyWatchParty/5.2"; "LoseIt!/6.2"; "ActionExtension/3"; "Adori/3";
  "Agora/0"; "Airr ("; "Airsonic/7.9"; "AllYouCanBooks/4"; "AllHitMusicRadio/2"; "Amazon;AF"; "Anchor/3";
  "AnchorFM/1.3"; "Anghami/."; "antenna/"; "Anybox/3"; "Anytime/8.7amugofjava"; "APKXDL"; "Apollo/2"; "Messages/7";
  "Balados/"; "Recordatorios/4"; "Arvocast/8"; "Radio.com/7.4"; "Audio/."; "Android_AudioNow"; "Awasu/4.8"; "Bear/4";
  "Bible/6"; "Bolt/4"; "Bookmobile/."; "Boom/3"; "Boomplay/0.0"; "Bose/4.1"; "bPod"; "breez/5.3"; "Broadcast/8.2";
  "BroadwayPodcastNetwork/iOS"; "Browser/8"; "BrowserPlus/6"; "Bullhorn"; "Capital/5"; "capsule.fm/3"; "Castamatic/1";
  "Castaway/."; ""; "Classic FM/1"; "Client/1"; "Cosmicast/4"; "CPod/1.6"; "damus/0"; "DS podcast/"; "DManager/4";
  "doubleTwist CloudPlayer"; "Doughnut/2"; "Downie/9"; "Downloader/7"; "EMAudioPlayer 9.2"; "Expo/1.8"; "CFR%20Plus/.";
  "Fathom/2"; "FeedStation/3.."; "Files/9"; "Fountain/."; "Garmin fenix 5X Plus/1.7"; "Garmin Forerunner 6/4..";
  "Gold/4"; "GoldenPod/6.."; "GoLoud/0"; "Goodpods/2"; "GoodReader/9"; "(Fuchsia) CrKey/7.3"; "Guacamole/0";
  "Hammel/1"; "HardCast/0"; "Hark/2"; "Heart/2"; "hermespod.com/3"; "HiCast/8"; "Himalaya/3"; "HyperCatcher/9";
  "iHeartRadio/1"; "IOSAudiobooks/7"; "iVoox"; "Jam/6.4"; "Saavn"; "KajabiPodcast"; "KakaoTalk/7.0"; "Kids Listen/4";
  "KidspodMobileClient/2"; "KKBOX/9.6"; "Laughable/6.7"; "LBC/7"; "LG Player 3.8"; "Listen/0"; "Liulo/4"; "Listen5 2";
  "Luminary/."; "Megaphone.fm"; "Menucast/2.8"; "Messenger/."; "Mimir/9"; "MobileSMS/2"; "MoonFM/0"; "myTuner";
  "Newsly"; "NRC Audio/3"; "NRC-Nieuws/1"; "Outcast"; "Podcast Overhaul/1.5"; "Palco MP3/6.4"; "PeaCast/8.3";
  "Player FM"; "Podbay/0"; "PodcastGuru/2"; "Podcast Player/3.3"; ""; "Podcastly"; "Podchaser "; "Podclipper/5";
  "PodCruncher/1.9"; "Podeo/1"; "Podfriend 4.3"; "Swoot ."; ""; "PodKast"; ""; "PodLP/5.7"; "PodMe/"; "PodMN/iOS 5.8";
  "PodNL/0"; "podopolo2"; "Podplay/7.4"; "Pods/"; "Podurama/0.8"; "PodTrapper"; "Podvine/8.9"; "Podverse/"; "Podyssey";
  "PugpigBolt 5.0"; "radio.sl 4"; "GetPodcast/8"; "radio.next/4"; "Radioline"; "Repod/2.."; "rhythmbox/7..";
  "SachNoiapp/0"; "sp-agent"; "ServeStream"; "Shadow/0"; "Shadowrocket/5"; "SiriusXM/7"; "Snipd/6"; "Sodes/7";
  "Sonnet/iOS"; "sony_tv;ps5;"; "SoundOn/3"; "SoundWaves-8.1"; "Spreaker/0"; "Stitcher/"; "StoryShots/9.9";
  "Swinsian/5"; "ThePodcastApp/9.7"; "TREBLE/."; "Turtlecast/1.1"; "Ubook Player"; "VictorReader Stream Trek";
  "VictorReader Stream V3"; "VictorReader_"; "Vodacast/8"; "WynkMusic/6.."; "Xiaoyuzhou/5.0"; "Ya.Music/"; "yapa/3";
  "Zune/5.3"; "UCast/1"; "NPR%20One/9"; "Uforia/2"; "LAT-Native-App"; "nytios/7"; "LiSTNR/1"; "Podu_player";
  "TiviMate/7"; "IPTV/1"; "IPTV Pro/4"; "com.audials/6"; "CoolerFM/7"; "Metacast/6"; "mowPod/8"; ""; "Virgin Radio/8";
  "MetaMask"; "+Simple Browser"; "Bitwarden_Mobile/9"; "MXPlayer/0"; "HistoryHound/8"; "Quicksilver"; "CamScanner/.";
  "OBS/58"; "XSplitBroadcaster/79"; "twitch-desktop-electron-platformspotlight/96"; "Stream Master"; "Freespoke/8.9";
  "Whatplay"; "Lark/17"; "SearchCraft/40"; "DeFiWallet/15"; "Clipbox+/92"; "appname/HideX"; "HMSCore";
  "appname/PLAYit"; "Autopliuslt"; "HCom"; "CoinbaseRetail"; "De Telegraaf"; "waipu/4"; "Redditor";
  "com.topbuzz.videoen/5"; "GlobalProtect"; "Trade Me"; "XING/4"; "Bridge/8"; "iPlayTV/7"; "momoWebView/7";
  "nate_app;appver:8"; "SOFI_APP_VERSION=3"; "WNYC"; "com.theepochtimes.mobile/8"; "ReutersNews"; "WatchFree/5";
  "obsidian/0"; "Perplexity"; "XShare"; "VISHAAPP 2"; "nyt_android/7"; "mojeek-app"; "Fiddler/26"; "ZONApp/iOS/6";
  "tracepal/7"; "topsecret.chat/4"; "Kwai/5"; "Kwai_Pro/8"; "Sooplive Webview/."; "GoEuroIOS /4"; "BOOM v1";
  "WallaNews/5"; "TRP_iPhone_App/7"; "Townnews-Now/0"; "Klara/"; "EdmodoAndroid/8"; "HFEducationIOS/3"; "HFIOS/7";
  "OpenVAS-VT 9"; "appdb/6"; "smzdm 6"; "Zite/3"; "DeepL/"; "anythingllm-desktop/9"; "opgg-electron-app/1";
  "VidJuiceUniTube/0"; "Seekr/5Android"; "Seekr/0CFNetwork"; "Superbalist/8"; "KeplrWalletMobile/."; "lookr/2";
  "Kimi/2"; "genspark"; "Hulu/2"; "TeraBox/3"; "dubox;8;"; "DeepSeek Chat/0"; "ChatGPT/0"; "REDLINECLIENT;V8";
  " /1.6Electron/"; "AppVersion/2aappname/"; "/529.0 (iPad; iOS 6; Scale/9)"].
Definition client_agents6 : list blob := [
  "Outlook-Express"; "Outlook-iOS/"; "Outlook"; "WindowsMail/97"; "Icedove"; "Spicebird/0.7"; "Airmail"; "Lotus-Notes";
  "Barca"; "Postbox"; "MailBar"; "The Bat!"; "DAVdroid"; "Iceape"; "Live5ch/20"; "JaneView/"; "BathyScaphe/";
  "Raindrop.io/67"; "Franz/24"; "Mailspring/77"; "Notion/18"; "Basecamp367"; "Evernote58"; "ramboxpro/";
  "Mailbird/4.5/"; "Yahoo%20Mail"; "jp co yahoo/ymail/4"; "eMClient/6.0"; "NaverMailApp/9.6"; "Mail/0"; "Foxmail/78";
  "MailMaster/41"; "BlueMail/82"; "mailapp/0.6"; "Android-Gmail"].
Definition device_agents0 : list blob := [
  "Coolpix S800c"; "EK-GC417"].
Definition device_agents1 : list blob := [
  "AFTLBT962E2"; "AFTLFT962X3"; "Mac Audio Spro"; "Tesla/4"; "sp9853i_1h10_vmm"].
Definition device_agents2 : list blob := [
  "ArchosGAMEPAD"; "JXD_S601WIFI"; "Xbox"; "Nintendo DS"; "OUYA"; "Retroid Pocket"; "Aplix_SANYO"; "Dreamcast"; "(PS3)"].
Definition device_agents3 : list blob := [
  "10moons_')"; "E500A"; "1605-A01"; "3GNET_"; "Aplay4"; "MT0812E"; "4Good "; "4ife 4K Smart TV Box"; "Tarzan F1";
  "DRENA"; "GT40promax"; "8848 M6"; "G4040"; "Alpha 20"; "A95X"; "Android 13; M50)"; "ACD-Tab-10S"; "TK806_EEA";
  "elite Aquarius"; "Shine"; "Flair"; "AI+ m)"; "ADT1061"; "AIRBOOK PRO 8S"; "iris708"; "ALDINORD, d, wired";
  "ALDISUED, m, wired"; "ALLINmobile_ARENA"; "AMA A703"; "LE-55ZTUS30"; "AM405"; "RG505"; "ANCEL"; "ANS/"; "AnPad_U2";
  "AOC,"; "AOYODKG"; "WT19M-FI"; "ARRIS"; "ASSE-Q5"; "ATT_"; "ATMAN-m;"; "IT-801B"; "ATOL 150F"; "AUPO_Zeus";
  "TB-703G"; "AUX i_TD"; "Excer_"; "AWOX"; "LGE; AXv;"; "AXXA_"; "AYYA "; "AZOM_"; "Accent_"; "U43EY1500B"; "BUZZ 1";
  "24HHY1"; "A130_2023"; "E39)"; "BLECK"; "LeoPad_10"; "AdronixMT4"; "S4+"; "SP3701"; "PIC7GS8"; "CYGNUS"; "AILETV";
  "Numy"; "AirTouch PERFORMANCE"; "AIRIS"; "AIRNESS-y"; "Halo3_Pro"; "Airtel "; "AT702"; "M300"; "ajib "; "Akai-";
  "Alba4"; "Alco"; "Access_Q784C"; "Z28Pro"; "RX700"; "ASSTVC"; "Heat3"; "kPad"; "VivaH7"; "ZY-07B"; "ZQ8003";
  "Altibox"; "SX41"; "Altus"; "AEOHP"; "AFTPR001"; "AMIGOO X15"; "Amigo7"; "Amoi"; "Q4"; "Android 8; P80)";
  "angelcare_"; "Anker"; "ANRY-X20"; "AOCOS 3;"; "X900_US"; "Aoro a)"; "R103"; "EM103A"; "OSX/"; "NS220"; "A50TI";
  "Arian Space"; "BioniQP116"; "L925"; "TSD Octa A0520P"; "A101B"; "ARTLINE-KMX3"; " GAP"; "ATL-31"; "Arcelik";
  "32LH7030S"; "ASANZO_Z5"; "ASK "; "Wren"; "AP-109_"; "Astro-S501"; "Asus"; "AP6301"; "ATMACA_"; "ATOM-216AM"; "M-T3";
  "CP10"; "Magic_1"; "100011886BK"; "CDM"; "R2021W2"; "Avaya Vantage"; "Avenzo"; "Avvio8"; "UTBook"; "Axioo ";
  "Axxion ATAB-9"; "AT1011E"; "LT50+"; "Azupik"; "BAFF58"; "Pixavi"; "BAUHN"; "bb-mobile"; "65LEX-8262"; "ZL80";
  "Destiny"; "BDS2 Plus"; "BGH u;"; "BIHEE"; "BPM9727"; "I9_Plus"; " M863"; "BPad_Mini_SE"; "BT7X1"; "BROR s)";
  "RUNE II"; "For BYD AUTO"; "LRNS10GIL0"; "BYYBUO"; "BK2021"; "Nook"; "TW10"; "Becker-0"; "A239s"; "R68 II";
  "Beetel n"; "X104-EEA"; "Beko"; "FibeTV"; "Bp100 X-Plus"; "QS02)"; ""; "BenWeeO;"; "AE9950"; "TAB-A03-BS";
  "G-PADLITE"; "Home9"; "BEZKAM BK-RAM2"; "B29_US"; "GAMETAB-ONE"; "BilimBook mini"; "Capture+"; "MD09TV";
  "BIOWOLF8F30"; "E5018"; "BPRO"; "Colortab10"; "Bittium"; "Bphone_B1114"; "B6 Note X"; "Black Box"; "BMM431B";
  "EO104K-BL"; "BLACKPHONE_Blackphone_K330_3G"; "Bt 70FS51B"; "DM550"; "BP_6110"; "BE_dg"; "Zero18"; "BlackTAB7";
  "D701"; "BLUSLATE6"; " S8a"; "BSS50"; "EF501"; "BNT-71"; "BLUEGOOD"; "WV8-M"; "BL61 "; "K10SE"; "B_TAB1021";
  "Cybook-Tablet"; "Cabana"; "WZONE"; "BOWAY"; "Y8 MAX S905X3"; "L1f-pluss"; "B-ONE"; "B501"; "BrightSign"; "BTPC-";
  "850_4G"; "BUB6R-3T"; "SWEET5+"; "Bush;"; "XR4500"; "CM522"; "NOATAB"; "CADENA_"; "CAGI-"; "4G_Hero"; "CCIT ";
  "CT-8932"; "CEPTERTAB101"; "Blaze G"; "CGV_Ultimate T8"; "HCE700"; "DUKE8"; "A015"; "K10C"; "BlueS10"; "N101A";
  "COOD-E"; "CORN_"; "COYOTE "; "APOLLO10 PRO"; "QUEST"; "CUD GO 2024"; "CVTE_MSD338_1G"; "CX9006"; "CAIXUN AndroidTV";
  "Mega 10"; "CNM6762"; "S70CDS"; "CANAL PLUS"; "M75TG"; "Capitel-7"; "Captiva m)"; "Carbon 1 Mark II"; "CT820";
  "C811"; "VIA-S7"; "S48c"; "M1092Q"; "U800B"; "CELCUS, -, wired"; "Celkon"; "CellC_"; "Earn"; "Cellacom"; "PADUA";
  "CM2221"; "C66"; "HON H01"; "Cherry"; "OJOS 6"; "E-Board-MX055"; "M653"; "TYH211U"; "Vi10"; "RS35"; "Life X6";
  "Claresta "; "B8Lite"; "ClearPHONE"; "MFC_8"; "Storm_C3"; "Go SP"; "Hind 5.1"; "Clovertek_G12"; "CnM "; "Cobalt-T";
  "CTB761"; "EPICO 4K"; "Pride_1A"; "TTL8"; "Comio"; "VIP7802"; "Compal-v"; "CT101"; "ConCorde u Build"; "GoCAM_G301";
  "C-721"; "Condor"; "CP6001A"; "CTAB-1044"; ""; "CX1045"; "CP07"; "CP20"; "Cosmote"; "CP-J55a"; "WING9"; "Crestron";
  "CKT_"; "CRONY-7021"; "Core-X3"; "BlossomB902"; ""; "U4GT"; "cuiud"; "C70W"; "CM17XA"; "DTB-7168G"; "D5-L";
  "DASS H-ONE"; "BOXD7"; "DEC 3000 - M700"; "DEXP"; "DEYI10M18"; "PUMA-05"; "DG101HSTB"; "X8ULTRA"; "DIGICOM_";
  "DIGIFORS 400"; "DCT 90"; "8800i"; "DINGDING-SK2"; "SN339D"; "DFM48"; "Smartphone DL"; "D2_EEA"; "DNS n"; "Aloha_5G";
  "DPA H3"; "DRAGON OTT"; "DSCS9"; "RD86QE"; "DUDU5"; "DUNNS_"; "Daewoo"; "Dslide"; "DangcapHD"; "Signature-S8"; "";
  "MEMOR 1"; "K908H4G"; "DATANG"; "DW-03C0J"; "DATSUN"; "DAWLANCE_"; "_DB8PLUS-"; "DBTELr"; "DS-X1"; "DeWalt MD501";
  "Dell "; "DT0704K08"; "DENKA TV"; "TAD-0"; "Desay"; "M50E-1A"; "DICAM-i"; "Digi_-"; "DL3"; "DS502";
  "DIGIHOME, 7, wired"; "DL1023"; "Digit_"; "iDxD5"; "Dynalink"; "DX_TASL83"; "FROZEN"; "M1092R"; "QC-7BHD";
  "DiverMax"; "DVS X3"; ";FOMA"; "32GHS57"; "Dolamee-D6"; "Movix Go"; "S200"; "Doopro P3"; "Doov_"; "Dopodx";
  "Doppio_"; "65DYW60"; "Doro"; "MAX 10"; "DREAMSTAR"; "Sens 5"; "i96 Pro"; "DROXIO C40"; "DtacPhone~)"; "DuneHD";
  "duoTV"; "Diamond R8"; "Duubee_c)"; "Sternenschein G-86"; "DYON,"; "E-Boda"; "CT9716"; "A5SLIM"; "E-tel-N7";
  "EBEN x;"; "EBEST"; "EX-60US001B"; "ECOO_E05"; "TM105"; "Hawk_from EE"; "EFT_H4"; "EGL11QF6"; "EGO1003"; "EKO";
  "EK-MII"; "ELARI"; "ELE-GATE"; "M1045W"; "VT8216"; "ELT0706H"; "SDMC D1221"; "EUROLUX;"; "EVPAD-5S"; "OCTA T720Q";
  "EX7X4"; "EXO_"; "EYU T7"; "Eagle Gold"; "EE10A"; "EasyPad"; "LOOK"; "EcostarTV"; "Rocky_MT1)"; "EDENWOOD;";
  "Ehlel_"; "EinsteinT3"; "S45U"; "Meeplus_1"; "electroneumM1"; "ELED-43SMART"; "AFTRS"; "TAB733"; "P6000"; "V55C";
  "B50UHD4EKC"; " 6CS"; "NV731"; "EGQ101"; "emporia_"; "PowerMax"; "ENERGYK)"; "EN1007Qplus"; "Enot_E102"; "ENT11QF12";
  "ClickTabDSh18"; "EP19"; "ePad 7i"; " K535"; "AN-232"; "STI6110"; "Axis"; "ERGO"; "Ericy-n"; "32LX9050T2"; "PH-1";
  "WoozeL"; "Eton"; "ETL-T850"; "E65 Pro"; "EUTB_758"; "Onyx-1S"; "M55C"; "DC-855"; "Fine 7B"; "32EVF5000S"; "E0120";
  "E8051HD"; "Evolio"; "EVOLVEO"; "EVM4G6"; "Playpad "; "EX45i"; "SMB-H8009"; "Exmart K1"; "Onyx"; "ESP-300";
  "Rock X9"; "NXTEPaper-S1"; "EZIO-v"; "EZ5"; "H166"; "B2021"; "LT16"; "D118_EEA"; "FFFTAB10a4"; "FX4423"; "Fise_";
  "FLYCAT"; "Y121-EEA"; "FXT113R"; "SP5045V"; "ifive3"; "FT800"; "FOODO-X10"; "FORME-"; "DT2"; "FPT_X3";
  "FRESH SMART TV"; "FTRW100"; "PortalTV"; "Q3pro"; "FLEET_7"; "FP5"; "FX300"; "Famous"; "FAN-M300H"; "Smart550";
  "FAST818"; "vKB004L"; "FENOTI"; "Fero_"; "M405B"; "Hola"; "Figgers"; "Filimo"; "FinePowerD5"; "FINLUX"; "S90_Q ";
  "Fision TV Plus"; "F_Plus"; "Fly"; "Fobem "; "Q902)"; "Fonos-"; "Xming"; "Formuler "; "Amosta3G5"; "Apollo 5 Neo";
  "ENIE E2"; "FourK500"; "EASYSMARTM3"; "InFocus M0"; "FOXXD"; "2306004M"; "FT142"; "RubensTab_T11"; "FUEGO, a, wired";
  "BZ02"; "FUNAI;"; "F104Bv2"; "FXT810R"; "QX1000"; "G Guard"; "GNE-N001S"; "PAD10_PRO"; " EX10"; "GTouch_"; "G1000";
  "GDL_Xtreme 4"; "GEOFOX MID743"; "GEOZON_!;"; "Stark"; "Android 8; TAB5;"; "QuartzT10-3"; "Maad"; "ARIES"; "EVO-VX1";
  "G10_US"; "GO700FR"; "GTCOMBO"; "JACULUS"; "LGE; GVC-z;"; "Galactic_Astro"; "TVS-SU5007"; "GI UNI2"; "EDU-7MT4";
  "Garminfone"; "GWAT8-1"; "GA50F-OS"; "Gazer_TV"; "JT10-X"; "GEANT T1"; "Feel_7013N"; "GEM5"; "GM 8";
  "SK-Mtek GT7301"; "GD S1 ATV"; "GEOPHONE_"; "GEOTEL"; "GTX-98Q"; "Getnord M;"; "G-Fone6"; "GHIA"; "GHONGV10";
  "GHOST G03"; "Roma R2"; "GS80"; "Gini "; "S4020"; "V188"; "GLOBALSEC TAB TEN"; "GU730C"; "Globmall_X4"; "S20iQ19";
  "Gpad_U"; "StarOS"; "GO931"; "H1-C-ALADENG"; "F3Prime"; "i-905"; "LT-55U900"; "Goly-"; "GOME_U9"; "G1MNW";
  "Goophone "; " M5 Pro"; "GTV-"; "GRADIENTE"; "GRAETZ;"; "GTM_5j;"; "E101GCM"; "G0245D"; "G-8 PRO"; "GO 55303";
  "X1_Light"; "Gresso_"; "Gretel"; "GroBerwertHD7"; "GR-TB4"; "GR43200"; "Gtel "; "XP9800"; "H96Max"; "SpaceTab_H20";
  "T2000;"; "HAVIT"; "H10_ONE"; "50SSD-SMART TV-R1"; "SP-001"; "HIPER S-Pad"; "HKC "; "HKPRO,a,wired"; "N159V"; "";
  "XBOOK_12"; " EV10;"; "HOTREALS"; "HP 7"; "HTC"; "GT20"; "Haier"; "Haipai"; "HaixuW)"; "Hamlet "; "Iron_2";
  "ALGIZ_RT8"; "T7-QC"; "Hanson\;"; "ODROIDN2"; "HARPER"; "43F01"; "Hasee"; "DVB-ATV100"; "W5A"; "HEIMAT_H43PU2303SVF";
  "Helio S5"; "Tab1000"; "HB_X7"; "HTB801"; "Boost);"; "MRK-BD00"; "HLV-Td"; "R6III"; "OC101"; "HIHI-"; "Fun5";
  "HIMAX "; "65YUHD-R"; "Fest"; "HS_"; "X6-PRO"; "U972"; "HITACHI;"; "Amaze S1"; "X-Go"; " KP1"; "HT 8MZ"; "HT3";
  "CK65"; "HongTop"; "WDY-LX1"; "MZ104"; "HY416"; "WEE5-75EU-FDVB"; "43LE7022D"; "HOSIN_"; "VLE5"; " M5i"; "705-G Go";
  " HG11"; "Huagan_"; "KHATAR H-20 PRO"; "Honor"; "Hugerock"; "BrailleNote"; "Humax_"; "Epic"; "ST-810"; "Model_5";
  "Hykker_MyTab10"; "PNC560"; "L622"; "ST01"; "IKALL"; "COMMUNICATOR 9.7 3G"; "Nu65"; "IDC_Voice_20_4G"; "KF4Go";
  "IKU "; "IMO V"; "KZCAR"; "INQ/"; "INSYS"; "T95pro"; "IQM newton"; "IRA_DUO"; "IT-1101"; "IUNI "; "XDS84K";
  "SWU-6522"; "IMAQ"; "BAM-II"; "A502"; "M370"; "X_RAINBOW"; "Inch Avior 3"; "eco_s"; "INDURAMA"; "EARTH10";
  "InfinityProTV"; "Infinix"; "TVB-906X"; "MAG200"; "Inhon V6"; "X96mini"; "intki_ Build"; "InnJoo"; "InnosD6000";
  "INNOq"; "INOI"; "AFTJMST12"; "NUC10i3FNH"; "Aqua"; "Eager;"; "KM5PRO"; "TZ13"; "G8060"; "TPC-J"; "JFone JS501";
  "JKL_A28"; "JP5 Inmate Media Device"; "JR-J71"; "J10_US"; "JVC;"; " JP1;"; "A10Pro_EEA"; "JK702"; "Jesy_J7"; "JK760";
  "JY-z"; "Remix Pro"; "JIN_TU f;"; "A450)"; "Jio/1/"; "JSPQ65"; "Jolla"; "Joy JD"; "TB-JS101A"; ""; "Junipers/";
  "Freedom"; "KLT_K301"; "KTouch u"; "ROiK10"; "KATV-01 PRO"; "HTL21"; "Armor H1s"; "KWSA80K"; "Nova_10_Pro_4G";
  "K1 turbo"; "K22M43298U"; "knmobile_F;"; "KOPO-"; "KREZ "; "K6b"; "NET_K7"; "EV-6"; "55UE-BYVB"; ""; "KZG_Scope";
  "KAAN_N2"; "KaiCloud744"; "KALLEY"; "KJ_AC02"; "SmartVision3"; "S2052GB"; "Kata "; "Kazam"; "KAZ-N20"; "Alumini2";
  " O61"; "Hemera"; "Three Proofings_W8"; " VIM2"; "Kiano"; "Kingbox"; "N9600"; "Kingstar"; "Kingsun-"; "KST103SD";
  "KIOWA "; "KIVI 4K"; "KL/"; "M836"; "IM5"; "Kogan"; "Komu-"; " RU1"; "CITY4"; "Koobee"; "K1 Trio";
  "Kooper-mobile-W502"; "Korax"; "KORIDY_n Build"; "KL1084"; "KTV-x"; "K&M"; "KULIAO K10"; "Beyond"; "Kumai"; "Kurio";
  "KWC-"; "KA-E410W"; "REX RX"; "Sapphire7"; "Panther2 Pro"; "LAIQ"; "LCT_t"; "LEM16"; "LG"; "H11-EEA";
  "LOGAN_Panita_3G"; "APPLLP"; "C3700"; "Lunnen"; "LU-V78"; "LW788"; "LYF/a/"; "LFi ONE"; "Polar3"; "XM100";
  "lanin T4"; "X540;"; "Lark_"; "MID_1089IPSA100"; "Lava_"; "LePan"; "L202206"; "Le 2"; "N-57"; "Z10-E";
  "LECT-TAB0711"; "Trendy 5.0"; "Leelbox"; "50U550T"; "RST_B6652HD"; "Leke_Pad-.)"; "Lemco FBX-3566"; "Lemhoov";
  "TDV900"; "ZUK5"; "LETAB916"; "S104G"; "ANOVA A5"; "S6A1"; "MFC146tf"; "32TP1HDTA1"; "LIFEMAXX, 6, wired"; "LimeT95";
  "L16 Max"; "Lingwin "; "LI22"; "LINSAY "; "Webpad7007"; "LOEWE,"; "L55B"; "Fieldbook K101"; "E812"; "DIXONS-LOGIK,";
  "GR0006"; "LongTV"; "Lovme 7;"; "Lumigon T3"; "L9503"; "NEOSR620"; "LUNA_G9"; "LUXOR, l, wired"; "TPC1013"; "Pure1";
  "M-KOPA"; "Foto3"; "M.T.T."; "M3SL20"; "M4_B2"; "CRD55-UHD9)"; "M821"; "MS531"; "T1270G"; "MBI R7"; "MBK-T2101";
  "MBOX"; "MDC M5"; "MEEG-"; "MEGAMAX46MG11FSM"; "MEO TV Box 4K"; "MES-B3"; "MEU k Build"; "Caryota 8"; "MIWANG_M2s";
  "M20"; "MLLED_"; "IQG550"; "Mortal T1"; "TAB-S1"; "Primo76"; "MStar"; "DV8235"; "MTN-"; "MULTYNET FHD"; "MYPAD7s";
  "MC-X7MINI"; "Mafe_M825"; "MagentaTV"; "IRON+"; "bravo Z40"; "JACK "; "Malatar"; "Mango_S5"; "MANN "; "MANTA,";
  "MFSTAB"; "Mara_S"; "MarshalME"; "Mascom S750"; "Massgo_"; "Hapi10"; "NEOQC4G"; "QC77QPS"; "Maximus 3.0"; "818 3G";
  "MQT55USD03"; "MS457"; "Max80 Plus;"; "Noir X"; "Maxtron T1"; "MAXWELL;"; "MX-A64"; "Comet;"; "MS5424G"; "McLaut TV";
  "Grace 9"; "M785"; " KM1"; " 1EY"; "E691X"; "MS3B)"; "OTT Xview AV1"; "Meitu"; "MZ-E"; "MELROSE S9"; "SPN72";
  "Standalone HMD"; "METZ 2K TV"; "MX1397"; "Q327"; "MLAB-"; "RM-1031"; "ETL101GB"; "MT003-21"; "NEO-X8"; "M4CR";
  "Mintt"; "MIOn"; ""; "MPM-"; "MITCHELL_BROWN;"; "MITO "; "MITSU"; "MC32020"; "NOVA P3"; "MobiGo2"; "Lonan"; "FAME";
  "Zumbo S"; "GENESIS_126"; "Wave5"; "Cynus l)"; "MT7-411D"; "TicWatch S"; "MD-01P"; "MEP2Q421G"; "Modecom"; "Mofut";
  "MD-PH-001"; "momo3s"; "TurboPhone4G Compact 2108"; "MOT"; "LEX L11a"; "MOVIC"; "M8601"; "MT-T800"; "MGP7";
  "MultiPOSX9"; "MS45S"; "MP01A3G"; "MyGica "; "MY MOBILE 708"; "myX3"; "MyTAB-8 MINI Dual Core"; "MyWigo ";
  "MygPad Q;"; ""; " 502M)"; "E70 Ultra"; "MYSTERY"; "NpadX"; "SNAP_PRO"; "NEC_"; "LT-09NF7021S"; "NETWIT_{)";
  "Nevir,-,wired"; "NEXBOX-W"; "NEXON_X5"; "Discovery_XT"; "NG3128HD"; "NGM h"; ""; "NINETEC"; "NINETOLOGY ~;"; "NOA_";
  "SMART_VOLT_NX5"; "NOGAPAD7G"; "NTV-H3230TS"; "Vi_Note"; "HB-2000"; "NUU_"; "NYX "; "NBTY07SMKG"; ""; "DAMMAR";
  "NX-32THS100"; "MOVIO 2"; "NP-752Go"; "NeoTab H85"; "T500 3G"; "Navon_"; "M002N"; "NEDAPHONE V9"; "Neffos";
  "Neolix_"; "NEO906"; "NQT-7W"; "KT1007_EEA"; "N32HR2301SF"; "NETBOX"; "GTV100"; "NM-NETPAD7"; "NIM-"; "neutabk1";
  "NB RunIQ"; "NBTB102"; "NEWALO)"; "NEWGEN-b"; "NLS-MT90"; "UE Pad 1"; "CarPad-II-P"; "Newsday_A2"; "Nexa_Atlas";
  "NTV_U50C614S"; "Nexian"; "NEXT "; "Next2"; "TAB A4030"; "Robin)"; "NOAIN"; "Nobby X800"; "NBX-"; "nok8"; "i450";
  "LMCV1"; "Noontec "; "Y-4001-FHD-R"; "NORDMENDE,"; "NT-TP10"; "Nos FIVE"; "A142"; "NS6"; "SPYBOXS11";
  "NVX-50U329MSY"; "Novey"; "NoviSea A10"; "NEO [Reloaded]"; "TM101A620M"; "NT01"; "Nuvo_NS35"; "NVIDIA"; "O+_Air";
  "O2-"; "TEG9300"; "OINOM_V7"; "GEN-10"; "PI Plus"; "OLTO-"; "OMIX "; "onn."; "37OV"; "Poke3 "; "N1T"; "S60Pro";
  "MDTV"; "OTTO CR05"; "OUJIA"; "Ox-`;"; "OYSIN f)"; "Apex2"; "Tab_A6"; "OBASMART_3"; ""; " SF1"; "FIRE_V8"; "ODYS ";
  "Okapi"; "MAGIC+"; "OK-LS2"; "Olax "; "Olkya Liger 71G"; "Ollee008twoa"; "TREK"; "Onda"; "X-music S"; "OneLernDB716";
  "E1005;"; "AFTLE"; "ONIX S405"; "DP-CMX1"; "OokeeOne"; "Q7A"; "Rugged60Q"; "AS4K"; "Sigma_4_0"; "IUSAI"; "Optoma-";
  "SPV1"; "OrangePiJ;"; "R8L5T"; "OT-DVB74"; "Orbsmart "; "LeNumero1"; "CRANE-EVB"; "OUKI"; " RT3"; "OV-c(";
  "Jumbo X1"; "OWWO7S"; "UBS1"; "OYYUT11"; "Ozone HD"; "PGR3042"; "PAPYRE_"; "QUICKTAB PLUS"; "PCB-T104"; "E400";
  "P63L"; "PEAQ "; "PINE Z)"; "PIRANHA_"; "PIXPRO "; "Aura TELPAD MT7"; "POCO C40"; "POPTEL"; "KING 7"; "PRIME O8";
  "PrismPlus"; "PROFILO"; "PULID_"; ""; "Armadillo Phone"; "M7500"; "Paladin TV"; "Treo"; "T-i708D"; "P902i";
  "Panavox"; "Boom P1"; "Panodic"; "Panoramic_FQ-058/2"; "PG-"; "Xplorer_2"; "EV1 PRO"; "Pelitt_"; "Pendoo"; "PS650";
  "Pentagram"; "Perfeo"; "E5051"; "TP7A4"; "S410J"; "Rocky 2"; "Pipo_"; "A8110"; "F9212A"; ""; "Infineum Z5";
  "Pixelphone S1"; "Pixus"; "Gemini_4G"; "PLT-100"; "Play Now "; "MOMO0"; "Z519"; "PS_TAB_WB01"; "Pluzz_Z552";
  "PocketBook_"; "PM80"; "POV_TV"; "Polar P25"; "PolarLine_81PL98TC-SM"; "PMID7"; "Polestar"; "POLYPAD"; "W7531";
  "POMP "; ""; "Porsche Rear Seat Entertainment"; "V100M4L"; "YOLO"; "S455"; "DRN-709"; "MAXI 20"; "AXE_II"; "PMP5k1";
  "PD-3127 Build"; "Primux"; "P7PRO"; "T7012Q"; "PLT9999G"; "ProVision S1"; "M504"; "MPC-50"; "PROTRULY D7";
  "Punos 10"; "Librem 5"; "QBOX"; " Q09"; "QTAB10EW"; "TLW-100"; ""; "Scepter8"; "QTab"; "QMP_K8"; "Q27YF-PB";
  "QILIVE"; ""; "Levin V2"; "Qteky"; "AQT82"; "Q30"; "Quatro 8"; "Cronos"; "Quechua Phone 5"; ""; "TINKU LTE"; "QUMO";
  "Qupi TV"; "QW TB-7"; "R-TV BOXX99"; "R3Di_FR150"; "K55USY23"; "RCA4"; "MX101M3"; "H1A1000"; "RED_X_";
  "Regal TAB 10.1"; "NEP N9"; "rim4"; "FORTIUS QUAD 7"; "RH-LE02DSY-C"; "Shock5"; ""; "C330"; "MOS1"; ""; "RAVOZ Z4";
  ""; "Phone 2"; "Opulent X"; "Readboy "; "RxIS202"; "RMX5300"; "S700_MAX"; "i-Jupiter;"; "Valuer_V8"; "Redway_7";
  "M8_Go "; "RelNAT Premier"; " TB02"; "RD16Q"; "TLE-32SBM"; "Retroid Pocket"; "RevoYou"; "S6523"; "PACE A1"; "ricoh_";
  "MK902;"; "RINGING BELLS"; "Rinno R400"; "RMP-530"; "RITZVIVA S500C"; "RIVIERA_"; "STORM_S8"; "NovaTab_R10"; "";
  "ROAM CAT_M8"; "ZC-P95"; "IO 3D"; "Roku/"; "Rombica_"; "32HSQ1220T2"; "RM-790"; "Rover 0"; "RoverPad"; "RQ-768";
  "Royole"; "RG725"; "FieldPad 8"; ""; "S518"; "RunGee X9"; "F1-TT"; "Pyramid A5X"; "RT701"; "GT40 Ultra)"; "M655";
  "S2TEL-"; "20220728MT"; "SANY V8"; "S23_EEA"; "SEEWO_SD02"; "SEG, e, wired"; "GO3E"; ""; "SERVO 16MAX"; "StarTab";
  "SGIN_X10"; "SINGER"; "BID-AT200"; "Modern_S1"; "LYNX_LUXE"; "Atractivo"; "BLAZE_X500"; "SMUXBOX A1"; "SNAMI  )";
  "SOLE_POP_S50"; "Inspire_U5"; "ANVIL"; "SoshPhone"; "AG_1088_A133"; "Laika"; " K700"; "SQOOL-V4"; "Y777_Fire";
  "AERIAL"; "STG A1"; "STK_"; "LEAP-S1"; "S3_U_EEA"; "SUNWIND "; "PRAU8"; "SWOFY_"; "Young Y56"; "TPS-SC10"; "Saba ";
  "NEON_RAY"; "SAGEM"; "DIW3930"; "STS602"; "Salora;"; "KM22"; "samu"; "T3G_04"; "50SA707"; "N83 Build"; "TAB7A3G05";
  "Sansui_"; "RS635H"; "Sanyo"; " TB-PO1"; "SberBox"; "SCHNEIDER;"; "Schok_"; "SL-LED82S89T2S"; "Pi 5.5L"; "Seatel";
  "Seeken-"; "S4T7IN"; "Selenga"; "SELFIX"; "Sencor"; "SENCROM"; "Sendoy"; "Senkatel "; "SENSEIT4)"; " LS5"; "CRUISE2";
  "NBP-60"; "SBM"; "SHIFT6m"; "STV-55LED41"; "SHTRIH-SMARTPOS-F2"; "PNT-7045"; "Mega2"; "S55"; "Sigma"; "Silelis T-1";
  "_Blackphone 2-"; "SX2W"; "NP602SI"; "Singtech"; "Siragon"; "SOLARIN"; "APRIX C55"; "Sky,"; "SKYSTREAM_One";
  "55U7510"; "50ST3204"; "SWTV"; "SMADL_"; "Smailo_2GO"; "Notrino"; "SK5501"; "Smarttech,"; "SMARTBOOK S"; "ST1009";
  " M700"; "EG98"; "OD103/"; "Smarty "; "Smooth"; ""; "SobieTech"; "soda S2"; "J-PHONE"; "S1586K"; "W1452"; "Sonim ";
  "X10a"; "Soullink S1"; ""; "S10-H"; "Spark Plus 3"; "Sparx_"; "Versity 9640"; "CUARZO_6"; "Spice"; "RED 30";
  "C_Note"; "UP Max"; "Andromeda S8"; "SW-LED65UG403"; "STILEVS"; "STX-i"; "STOREX LinkBox"; "StrawBerry_"; "B3Pro";
  "Luna"; "SUBOR "; "SUGAR_"; "Cyclone X8"; "SUNVAN "; "Model S"; "V1s-G"; "SN7016"; "TAB1090"; "MXQ-H3";
  "SUPER GENERAL;"; "SuperBOX_S2PRO"; "SC-5q"; ""; "K7 Kids"; "Supermax"; "SUPRA"; "SN10"; "VOLT_5XL"; "ECOPAD7";
  "SBX604"; "Slate2"; "swisstone SD 530"; "eSmart M3"; "SYCO_"; " i97"; "SYX-T102"; "System76"; "5062W"; "T96mini";
  "TADAAM"; "TAGPhone"; "TAUBE,"; "Ignis 8"; "TCL,"; "K24DLX9HS"; "AVA-PA00"; "TECHNOSAT_"; "TEENO"; "TENPLUS_7)";
  "TETC F1"; "TIANYU"; "TIM_BOX"; "Metal_Tablet_10"; "MT-1011QR"; "TOOGO_"; "ArtiDiag800 BT"; "TOPSHOWS_X1"; "";
  "W109"; "TOX1"; "Magictab 9GX"; "TTK Box 214"; "TTfone"; "TVPLUS BOX"; "NuclearSX-SP5"; "Amazing X1"; "OX_X1";
  "TYD-109"; "TP_1_3000"; "MID169"; "Nitro 551"; "TA-3"; "Tanix"; "TeachTouch_"; ""; "M5Go"; "TECHSMART_"; ""; "UP918";
  "Allwinner Nitro Pro"; "Techwood"; "P50_B"; "DP8D"; "Preo_"; "Tele2_"; " TF6"; "TELEGO"; "Telenor"; "Telia"; "Telit";
  "TVB-100"; "TY55_1"; "Telma"; "TELO_M5"; "TPS390"; "TG15"; "Teracube"; "TERRA_PAD 0"; "Hudl *)"; "CASEBOOK_3";
  "ThL-"; "8950/"; "Thuraya_X5-Touch"; ""; "TIVO-"; "Tibuta "; "TIS001"; "TC1050G"; "Epix"; "Tinai K1"; "TiNMO_K3";
  "MiTraveler 958"; "Tolino Tab Y)"; "TONE m17"; "TOOKY"; "X1013"; "TopDevice"; "KIDS09"; "Toplux f"; "TOPSION";
  "PAD831B"; "EGO Max S"; "IS04"; " 770G"; "TM-SM410"; "TR99"; "17_Pro_Max"; "SurftabW"; "Trevi_"; "TriaPlayBox";
  "K43UH901"; "A23 Max"; "Passion-1S"; "MobileMapper"; "Trio V51 DT"; "Draco H3"; "HPH07"; "SSB-508E"; "TC504B"; "";
  "TurboX8"; "Turbo_X"; " TMNT"; "Turbopad723"; "TURKCELL_"; "TD24HFBHV1"; "MQ703G"; "Tymes V5"; ""; "KF-1500";
  "VP001"; "USCC-"; "TV358DVB"; "UGINE"; "UMI_"; "W888"; "UNNO "; "UOOGOU"; "Dorel 0"; "utstarn"; "UTIME FX";
  "Uzbekistan"; "TOX3"; "A101S"; "U580"; "Armor"; "7A_3G"; "P60_Ultra_5G"; "S900_Pro"; "Uniden C505"; "TANK2";
  "BASE Varia"; "U680C"; "A5.8"; "Uniscope"; "UT10"; "EA630"; "SDSTB02"; "V88"; "U513"; "UNSP7"; "Premier5"; "UT3G";
  "QOOQ"; "DT40"; "Albatros C2"; "43LF1210"; "V hope_A;"; "BUV7TBLT10A"; "VA-10J"; "V10E-LTE-464"; "PHANTOM_Z";
  "TAB7Q804VAL"; "VANWINV62"; "L10-T11"; "VAVA_X3"; "Maple-II"; "VDVD_P20"; "VEON "; "VETAS__)"; "NEW 5"; "VIDA-V401";
  "vi20220819"; "V-Z50"; "VILLAON "; "VIMOQ"; "F30UP"; "VIVIMAGE m;"; "POWER P1"; "VK-VK900"; "T5SE"; "VNT_Tab8";
  "VOCAL_V0"; "VOGA_"; "VOIX_U10"; "VOL001"; "VK-740-BL"; "VucaPad"; "ZYVV1"; "Z1_EEA"; "Vargo "; "M783K";
  "Vega Q7128"; "VEIDOO"; "LD-24SR4815BS"; "CX-508"; "ACE10"; "VCTf"; "UQM13A"; "QMV7B"; "Vernee"; ""; "V-Pad Pop";
  "Luck"; "ASTER"; "verykool"; "VESTA_SMART"; "VP74"; "Vexia FCS E2 CLM"; "ViBox_V5_Pro"; "VI86"; "VT75C"; "V65G2";
  "VSD7"; "Vinabox"; "VMP023."; "XA Pro Build"; "VMP0617"; "Z08MK"; "VIPRO "; "VT701"; "XS100MINI"; "VisionTouch";
  "Elite8QI"; "Vitelcom"; ""; "43LF1204"; " EV7"; "PRO3"; "Y52s"; "Vizio"; "VIZ101TAB811"; "Vodacom_"; "VF685";
  "Volla Phone"; "VOLT SV451 Vision"; "JAX_N"; "H618"; "PAD-7"; "SXPro"; "VORKE_Z5"; "VORMOR-X5-pro"; "CG65"; "VT888";
  "Voxtel_f"; "i8-Max"; " Bee"; "VSUN V9"; " 81V"; "VS5513"; "Nexo-TAB-7;"; " WO 8)"; "F803YM"; "WUD55G7762S"; "WE V3";
  "WIWA DREAM PLAYER"; "W10_EEA"; "TD-TP010G-2"; " P10X"; "WALKER;"; "LT750"; "Waltter NEO 10.1"; "V10"; "PRO 8475";
  "WM1001"; "P16W"; "20200808A1"; "weplus_3"; "WELLCOM_5"; "Westerndigital"; "65WS3205"; "WESTPOINT;"; "ZEN_5";
  "TAB-8US2"; "Wieppo S8"; "Wigor V4"; "WC300"; "42QWS9001"; "Swift 2"; "NOTE GRACE V"; "Wink_"; "PolarH4)"; "H7_US";
  "Winstar S5"; "Q93S"; "WPOS-3"; "WIZARPOS_#;"; "miTab"; "AT ASS"; "WS067"; "Wonu r"; "SP5026i-Scorpio"; "Woxter ";
  "G1LITE"; "XBO V8"; "X63Pro"; "Bison1"; "FTB13"; "X88pro10"; "X96_X6_I"; "X96Q"; "XB-T11i"; "XCOM X520"; "V1277";
  "XGEM,"; "XK03H"; "MagicDrawingPad"; "X4000"; "YT9270"; "Enia"; "XDSR785HDR_AVANT"; " N02"; "XDH-2A-B1"; "LA2-S";
  "MiTV-u"; "XI-CEU8"; "Xolo"; "XORO "; "Xshitou_P7"; "CORE_X"; "X9_16GB"; "XM14G"; "Xpad_M9_3G"; "YASIN "; "YY-675";
  "M20201419"; "Pad6 PLUS"; "X109"; ""; "Netra"; "U320"; "YUNDOO_%;"; "YNDX00076"; "TAB9-200"; "M631Y"; "yestel";
  "GO3"; "KB2 PRO"; "YPADP701"; "YD206"; "YOU-BOX"; "Youwei_"; "YTONE-"; "AO5510"; "N101 DUAL"; "YS8pro"; "YUNO.";
  "Yusun"; "YXTEL_H1"; "ZMOOTH"; ""; "Odyssey_O2)"; "65W600U"; "ZIFRO"; "ZIK W1027"; "Z168_EEA"; "ZTE"; "J77"; "ZB30";
  "Z3211G"; "ZXT-10HL323S"; " WIND"; "Zealot"; "THOR S"; " TC15"; "ZEEKER"; "ZEEMI "; "Admire Q)"; "Z5007";
  "C-723ULTRA"; "ZFINERY900"; "ZC-339"; "ZIDOO_X5"; "Eon45i"; "Zpad-X8-PRO"; "ZIOX_"; "ZA409"; "K118"; ""; "LT600T";
  "ZOPO"; "Zuum "; "Z18"; "ZT216"; "Desk21T-03"; "Allente 1"; "AS515"; "AL-555"; "TBX11"; "Astro;H;"; "Decade 53";
  "BO-LFSP4"; "BQ5059"; "eNOVA"; "takee 1"; "eTouchw"; "Smart-Ex02"; "EVVOLI,"; "Free_Wi-Kif4G_4G"; "hocon)"; "";
  "Deox"; "i-mate 4"; "IQ5.5"; "Avid"; "AUXUS 8 Build"; "SI52"; "iData_"; "NOTEBOOK6"; "BALRX7"; "IFT1018"; "E8_Ultra";
  "HLQ MAX"; "iHunt"; "iKoMo p"; "IK-787"; "Jarvis7_85"; "iLA X"; "ILEPO MXQ-4K"; "WTAB991"; "Vin3"; "i6800"; "VIVI_8";
  "muPADT7"; "EX1080"; "ITP-XD80L)"; "V7A"; "SGINO6"; "X7S"; "iOutdoor X"; "IPEGTOP"; "Perla"; "iQ&T"; "FrogOne";
  "PALADIN EVO"; "DX752 Build"; "iRULU_V4"; "ISWAG "; "IS330"; "I-T60"; "itel"; "iTRUCK 7 3G"; "IVA S6"; "733TPC";
  "Me 3"; "MC401_GWL"; "IX701"; "iYOU M1"; "Mi7_HERO_TAB"; "M10ES11"; "I 618 APP plus+"; "ivvi_"; "KIDIBY"; "mPhone6";
  "meanIT "; "mipo e;"; ""; "LUNA_II"; "Kali_8"; "neocore"; "NODROPOUT_"; "AFTWI001"; "phoneOnen"; "2000_000170_00";
  "43SFSW4M"; "Texet"; "Vmobile "; "waipu tv stick"; "OWN "].
Definition device_agents4 : list blob := [
  "FBMD/Z5WAL;"; "FBMD/R4;"; "FBMD/K54L;"; "FBMD/XPS 15 9530;"; "FBMD/HP "; "FBMD/80E5;"; "FBMD/SCL141CTP;";
  "FBMD/TH360R12.32CTW;"; "FBMD/Satellite "].
Definition device_agents5 : list blob := [
  "iPod"; "COWON F Build"; "Diofox_M8"; "Fanvace"; "FiiO"; "KuGou_P5"; "MECHEN"; "Microsoft ZuneHD"; "Oilsky M303";
  "SV-MV100"; "YP-G1"; "Shanling M6"; "Y57A"; "SLTDVD1024"; "DV-PTB1080"].
Definition device_agents6 : list blob := [
  "AKIRA Shell"; "AMCV Shell"; "BBK shell"; "DEXP Shell"; "Digma Shell"; "ECON Shell"; "Erisson_Shell"; "Hi Shell";
  "JVC Shell"; "Kvant Shell"; "Leben Shell"; "Leff Shell"; "Loview Shell"; "LUMUS Shell"; "Mystery Shell";
  "Novex shell"; "TCL/RCA-"; "Starwind Shell"; "Supra Shell"; "TCL/TCL-"; "Telefunken Shell"; "TCL/THOM-"; "Yuno Shell"].
Definition device_agents7 : list blob := [
  "ALDINORD;"; "ALDISUED)"; "AOC"; "ARRIS;"; "AWOX;"; "AXEN;"; "AYA)"; "Airties"; "LGE/SQY/RCA"; "ALLSTAR)";
  "Altech UEC"; "ALTIMO;"; "Altus)"; "Amazon/AMZ"; "Arcelik"; "ATLANTIC,"; "ATVIO"; "Bangolufsen"; "Beko,";
  "Blaupunkt_UMC)"; "Botech)"; "BUSH;"; "CLAYTON)"; "CECOTEC)"; "CELCUS,"; "Changhong"; "CONTINENTAL_EDI)"; "CreNova";
  "CROWN)"; "Cultraview690,"; "DIJITSU;"; "DIKOM)"; "DIORA;"; "Daewoo,"; "DIGIHOME;"; "DMM"; "DYON,"; "EAS_ELECTRIC)";
  "EGL)"; "ELECTRONIA,"; "ENDURO)"; "EDENWOOD)"; "ELEKTROLAND,"; "ESSENTIELB,"; "Expressluck)"; "FU)"; "FINIX;";
  "FITCO, v, wired"; "FOX,"; "FUJICOM,"; "FINLUX)"; "FUEGO,"; "FUNAI;"; "GN_ELECTRONICS)"; "GOGEN)"; "GRAETZ;"; "OWB";
  "HIGH_ONE;"; "HOFER)"; "HOTACK"; "HUMELAB,"; "HAIER"; "HANSEATIC;"; "HI-LEVEL)"; "Hisense"; "Hitachi,"; "HORIZON)";
  "HOTEL,"; "Humax"; "HYUNDAI;"; "Ikea"; "INNOHIT;"; "Intek"; "Inverto"; "JVC;"; "KUBO;"; "KALLEY,"; "KENDO;";
  "KYDOS)"; "LGE;"; "LAURUS,"; "LENCO,"; "Lifemaxx)"; "LINSAR,"; "Loewe;"; "DIXONS-LOGIK;"; "LUXOR)"; "MEGA_VISION,";
  "MIIA,"; "MStar,"; "MTC,"; "Manhattan"; "Medion"; "Metz"; "MIRAY"; "MITCHELL_BROWN;"; "MYROS,"; "NABO,"; "NEXON)";
  "NILAIT)"; "NORMANDE,"; "NAVON)"; "NEO, z, wired"; "NEXT,"; "NOKIA;"; "NORDMENDE,"; "OCEANIC;"; "ONVO,"; "ORAVA,";
  "PEAQ"; "Philipsa86HHL4142p"; "PREMIER,"; "PROFILO,"; "PROSONIC,"; "Panasonic"; "NETTV/"; "POLAROID;"; "QILIVE;";
  "RCA;"; "REGAL)"; "SCHAUB_LORENZ)"; "SCHONTECH;"; "SEG,"; "SEHMAX;"; "SULPICE_TV,"; "SUNGATE)"; "Saba)"; "Salora)";
  "TizenTV"; "SCHNEIDER;"; "Selevision"; "Sharp"; ""; "SKYTECH;"; "SWTV;"; "Smart;"; "SMARTTECH;"; "SOLAS,"; "Sony";
  ""; "STAR LIGHT)"; "STILEVS;"; "SUNNY;"; "TALBERG)"; "TAUBE)"; "TCL"; "SCBC,"; "TDSystems;"; "TOKYO,"; "TUCSON;";
  "TechniSat"; "Technicolor"; "TECHNIKA;"; "TechnoTrend"; "Techwood)"; "PREO,"; "Telefunken"; "THOM"; "Toptech690,";
  "Toshiba"; "THTF_CVTE,"; "TURBOX,"; "UNITED)"; "LGE/1/a;"; "VANGUARD)"; "VORTEX;"; "VOX;"; "VESTEL)"; "tv2n";
  "VISITECH)"; "WELLINGTON,"; "WONDER,"; "WALKER;"; "WALTHAM)"; ""; "WESTON)"; "X-VISION)"; "XGEM)"; "Amazon1Xiaomi";
  "ZIMMER,"; "ANDERSSON,"; "coocaa)"; "ELIT,"; "OK;"; "SIMFER)"].
