(** The words for built-in messages and objects in the languages haw to ml (i18n/*/dictionary.h 7-203),
    in the order of [macros] (RegTable.v). *)
From Coq Require Import List String.
Import ListNotations.
Local Open Scope string_scope.

Definition dictionaries2 : list (string * list string) := [
  ("haw", ["hou"; "kaulike:"; "="; "≠"; "i:hana:"; "pane:"; "pane:a:"; "pane:a:a:"; "pane:a:a:a:"; "ʻano"; "nil?"; "naʻu-iho"; "hana"; "ua-hana"; "wahahee:"; "ʻoiaʻiʻo:"; "moho:nā-manaʻo:"; "kikokikona"; "helu"; "boolean"; "hihia:hana:"; "aʻo:ʻo-ia:"; "code"; "recursive"; "uha"; "hoʻomau"; "ʻi-ole-ia:"; "ʻaʻole-naʻe"; "a:"; "ʻaʻole-hoʻi:"; "a-i-ʻole:"; "a-i-ʻole:a-i:"; "kope"; "+"; "e-hoʻohui:"; "-"; "hoʻemi:"; "×"; "e-hoʻonui-ʻia-e:"; "÷"; "hoʻokaʻawale-e:"; ">"; "≥"; "<"; "≤"; "modulo:"; "papahele"; "kūlou"; "mau-pōʻai"; "kūʻiʻo"; "ʻākena-ʻalani"; "mana:"; "ahonui?"; "na?"; "kūpono?"; "ʻino?"; "makaʻala"; "mawaena:a:"; "kūpono:"; "ʻike"; "sin"; "cos"; "tan"; "atan"; "log"; "ka-lōʻihi"; "mai:lōʻihi:"; "e-kāʻili-i-nā-wahi-i-puni"; "hiʻohiʻona:"; "e-loaʻa:"; "hope-loa:"; "koho:me:"; "hoʻokaʻawale:"; "pihi"; "lalo"; "offset:"; "append:"; "helu-honua"; "kua:"; "kūlohelohe"; "aia:"; "hoʻohālikelike:"; "kākau"; "holo"; "pili:"; "pili:a:"; "pili:a:a:"; "kau:waiwai:"; "kuhi-hewa:"; "nāhele:"; "kaʻina-hana"; "ʻoiai:"; "←"; "~"; ";"; "hoʻomākaukau:"; "hoʻolawe"; "helu-helu"; "hui-pū-aku:"; "popū"; "kūlana:"; "i:"; "?"; "hoʻokaʻae:"; "waiho:ma:"; "kāu:lōʻihi:me:"; "papa-inoa:"; "pākahi:"; "']oi-loa"; "nui-loa"; "hope-loa"; "lua-a-hope"; "ka-mua"; "hoʻopiha:me:"; "e:"; "nā-huaʻōlelo"; "nā-hiʻohiʻona"; "ua:"; "kākau:"; "oki"; "hou:"; "ala-ala"; "heluhelu"; "kū-i-ka"; "ʻōpū"; "hoʻopau"; "moʻo:"; "hoʻopaʻapaʻa:"; "mau-hoʻopaʻapaʻa"; "hoʻonohonoho:"; "ui"; "hoʻonohonoho:waiwai:"; "hoʻomanaʻo-maʻemaʻe"; "hoʻomanaʻo:"; "ʻoliʻoli:"; "ʻōnaehana:"; "komo"; "flūwi"; "hoʻomanaʻo"; "hoʻohana:"; "noi-ʻōlelo-huna"; "hope"; "kali:"; "wa"; "lā"; "lā:"; "mahina"; "mahina:"; "makahiki"; "makahiki:"; "hola"; "hola:"; "minuke"; "minuke:"; "ka-lua"; "ka-lua:"; "nā-lā-pule"; "ka-lā-o-ka-makahiki"; "pule"; "zona"; "zona:"; "Kākau"; "Nau"; "Boolean"; "Kūpono"; "Hoʻolaha"; "Helu"; "Kikokikona"; "Pāʻālua"; "Moʻo"; "Papa-inoa"; "Stdout"; "Faila"; "Hōʻike"; "Momona"; "Aʻo"; "Kahi-henua-faila"]);
  ("he", ["חדש"; "שווים:"; "="; "≠"; "_ב:עשה:"; "להגיב:"; "להגיב:_ו:"; "להגיב:וגם:וגם:"; "להגיב:ו:ו:ו:"; "סוג"; "אפס?"; "עצמי"; "לעשות"; "בוצע"; "_שקר:"; "_נכון:"; "הודעה:טיעונים:"; "_מחרוזת"; "_מספר"; "_בוליאני"; "מקרה:עשה:"; "ללמוד:פירושו:"; "code"; "רקורסיבי"; "לשבור"; "המשך"; "אחר:"; "לא"; "ו:"; "ולא:"; "או:"; "או:או:"; "עותק"; "+"; "הוסף:"; "-"; "להחסיר:"; "×"; "כפל ב:"; "÷"; "מחולק ב:"; ">"; "≥"; "<"; "≤"; "מודולו:"; "רצפה"; "תקרה"; "סיבוב"; "מוחלט"; "שורש ריבועי"; "כוח:"; "מוזר?"; "אפילו?"; "חיובי?"; "שלילי?"; "גלם"; "בין ו:__:"; "להעפיל:"; "הכשרה"; "sin"; "cos"; "tan"; "atan"; "log"; "אורך"; "מאורך:__:"; "הסר חללים מסביב"; "אופי:"; "למצוא:"; "אחרון:"; "להחליף ב:__:"; "פיצול:"; "אותיות גדולות"; "אותיות קטנות"; "קיזוז:"; "להוסיף:"; "מספר בינלאומי"; "חשיש:"; "תווים"; "מכיל:"; "השווה:"; "כאובייקט"; "לרוץ"; "להגיש מועמדות:"; "להחיל:_ו:"; "להחיל:ו:ו:"; "הגדר ערך:__:"; "שגיאה:"; "לתפוס:"; "תהליך"; "בזמן:"; "←"; "•"; ";"; "תלויים:"; "משמרת"; "לספור"; "הצטרף:"; "פופ"; "עמדה:"; "_ב:"; "?"; "_סוג:"; "לשים:_ב:"; "להחליף:אורך:עם:"; "_מפה:"; "כל אחד:"; "מינימום"; "מקסימום"; "אחרון"; "שני אחרון"; "ראשון"; "למלא ב:__:"; "על ידי:"; "_ערכים"; "ערכים"; "יש ל:"; "כתוב:"; "תפסיק"; "חדש:"; "שביל"; "לקרוא"; "קיים"; "גודל"; "למחוק"; "_רשימה:"; "טיעון:"; "ויכוחים"; "הגדרה:"; "תשאל"; "הגדרה:ערך:"; "זיכרון נקי"; "זיכרון:"; "סידור:"; "מחשב:"; "קלט"; "סומק"; "זיכרון"; "להשתמש:"; "שאלסיסמא"; "סוף"; "המתן:"; "זמן"; "יום"; "יום:"; "חודש"; "חודש:"; "שנה"; "שנה:"; "שעה"; "שעה:"; "דקה"; "דקה:"; "שנייה"; "שני:"; "יום חול"; "יום השנה"; "שבוע"; "אזור"; "אזור:"; "חפץ"; "אפס"; "בוליאני"; "נכון"; "שקר"; "מספר"; "מחרוזת"; "קוד"; "רשימה"; "מפה"; "✎"; "קובץ"; "תכנית"; "רגע"; "הוראה"; "מקום"]);
  ("hi", ["नया"; "बराबर:"; "="; "≠"; "पर:करना:"; "प्रतिक्रिया:"; "प्रतिक्रिया:और:"; "प्रतिक्रिया:और:और:"; "प्रतिक्रिया:और:और:और:"; "प्रकार"; "कुछ-नहीं?"; "स्वयं"; "करना"; "पूर्ण"; "यदि-असत्य:"; "यदि-सच:"; "संदेश:तर्क:"; "शब्द-के-लिए"; "संख्या-के-लिए"; "द्विपद-के-लिए"; "मामला:करना:"; "सीखना:उपाय:"; "code"; "पुनरावर्ती"; "समाप्त"; "बनाए-रखना"; "अन्यथा:"; "नहीं"; "और:"; "नहीं:"; "अथवा:"; "अन्यतर:अथवा:"; "प्रतिलिपि"; "+"; "के-साथ-संयुक्त:"; "-"; "घटाना:"; "×"; "गुणा-करे:"; "÷"; "विभाजित-करे:"; ">"; "≥"; "<"; "≤"; "भाग:"; "मूल"; "सील"; "शून्यान्त"; "संपूर्ण"; "वर्गमूल"; "घातांक:"; "विषम?"; "सम?"; "सकारात्मक?"; "नकारात्मक?"; "समतल"; "बीच:और:"; "योग्य:"; "योग्यता"; "sin"; "cos"; "tan"; "atan"; "log"; "लंबाई"; "द्वारा:लंबाई:"; "आसपास-के-स्थान-को-हटा-दें"; "अक्षर:"; "खोज:"; "अंतिम:"; "बदलना:साथ-से:"; "बाँटना:"; "बड़े-अक्षर"; "छोटे-अक्षर"; "छोड़ें:"; "जुटाना:"; "अंतरराष्ट्रीय-नंबर"; "हैश:"; "अक्षर"; "शामिल:"; "तुलना:"; "एक-वस्तु-के-रूप-में"; "चलाना"; "लागू-करें:"; "लागू-करें:और:"; "लगाना:और:और:"; "अस्त:मूल्य:"; "ग़लती:"; "पकड़ना:"; "प्रक्रिया"; "जब-तक:"; "←"; "~"; ";"; "आगे-जुटाना:"; "पाली"; "गिनना"; "जोड़ना:"; "सहसा"; "स्थान:"; "पर:"; "?"; "छँटाई:"; "रखना:पर:"; "बदलना:लंबाई:साथ-से:"; "नक्शा:"; "प्रत्येक:"; "न्यूनतम"; "अधिकतम"; "अंतिम"; "आखिर-से-दूसरा"; "प्रथम"; "भरना:साथ-से:"; "द्वारा:"; "प्रविष्टियों"; "मूल्य"; "है:"; "लिखना:"; "रोकना"; "नया:"; "मार्ग"; "पढ़ना"; "मौजूद"; "आकार"; "हटाना"; "सूची:"; "तर्क:"; "वितर्क"; "व्यवस्था:"; "पूछना"; "व्यवस्था:मूल्य:"; "स्वच्छ-मेमोरी"; "मेमोरी:"; "सफ़ाई:"; "शैल:"; "निवेश"; "उड़ाना"; "मेमोरी"; "उपयोग:"; "पासवर्ड-पूछें"; "अंत"; "प्रतीक्षा:"; "अवधि"; "दिन"; "दिन:"; "महीना"; "महीना:"; "वर्ष"; "वर्ष:"; "घण्टा"; "घण्टा:"; "मिनट"; "मिनट:"; "सेकंड"; "सेकंड:"; "सप्ताह-का-दिन"; "वर्ष-का-दिन"; "सप्ताह"; "क्षेत्र"; "क्षेत्र:"; "विषय"; "कुछ-नहीं"; "द्विपद"; "सच"; "असत्य"; "संख्या"; "शब्द"; "सूत्र"; "सूची"; "नक्शा"; "Stdout"; "फ़ाइल"; "योजना"; "क्षण"; "अनुदेश"; "स्थान"]);
  ("hmn", ["tshiab"; "sib-npaug:"; "="; "≠"; "rau:ua:"; "teb:"; "teb:thiab:"; "teb:thiab:thiab:"; "teb:thiab:thiab:thiab:"; "hom"; "nil?"; "kuv-tus-kheej"; "ua"; "tiav"; "cuav:"; "muaj-tseeb:"; "lus:kev-sib-ceg:"; "ntawv-nyeem"; "tus-naj-npawb"; "boolean"; "cov-ntaub-ntawv:do:"; "kawm:txhais-tau-tias:"; "sau-cia"; "suav-txheeb"; "tawg"; "mus-txuas-ntxiv"; "lwm-yam:"; "tsis-tau"; "thiab:"; "tsis:"; "lossis:"; "yog:lossis:"; "daim-ntawv-theej"; "+"; "ntxiv:"; "-"; "rho:"; "×"; "muab-los-ntawm:"; "÷"; "faib-los-ntawm:"; ">"; "≥"; "<"; "≤"; "qauv:"; "nqes"; "nce"; "puag-ncig"; "tsis"; "square-hauv-paus"; "lub-hwj-chim:"; "khib?"; "txawm?"; "zoo?"; "tsis-zoo?"; "nyoos"; "ntawm:thiab:"; "tsim-nyog:"; "kev-tsim-nyog"; "sin"; "cos"; "tan"; "atan"; "log"; "ntev"; "los-ntawm:ntev:"; "tshem-cov-chaw-ib-puag-ncig"; "cim:"; "nrhiav:"; "kawg:"; "hloov:nrog:"; "phua:"; "cov-ntawv-loj"; "qes-dua"; "offset:"; "txuas-ntxiv:"; "tus-lej-thoob-ntiaj-teb"; "hash:"; "cim"; "muaj:"; "piv:"; "lub-hom-phiaj"; "khiav"; "thov:"; "thov:thiab:"; "thov:thiab:thiab:"; "teeb:tus-nqi:"; "yuam-kev:"; "txhom:"; "cov-txheej-txheem"; "thaum-lub-sij-hawm:"; "←"; "~"; ";"; "prepend:"; "txiav-qhov-pib"; "suav"; "koom:"; "txiav-qhov-kawg"; "txoj-hauj-lwm:"; "ntawm:"; "?"; "tsi-muaj:"; "muab:rau:"; "hloov:ntev:nrog:"; "daim-duab-qhia-chaw:"; "txhua:"; "yam-tsawg"; "siab-tshaj-plaws"; "kawg"; "zaum-ob-kawg"; "thawj-zaug"; "sau:nrog:"; "los-ntawm:"; "nkag"; "qhov-tseem-ceeb"; "huav:"; "sau-ntawv:"; "tsum"; "tshiab:"; "txoj-kev"; "nyeem"; "muaj-nyob"; "qhov-loj-me"; "rho-tawm"; "sau:"; "kev-sib-cav:"; "kev-sib-cav"; "kev-teeb-tsa:"; "nug"; "teeb-tsa:tus-nqi:"; "huv-si-nco"; "nco:"; "zoo-huv-si:"; "tshuab:"; "cov-lus-qhia"; "dej-ntws"; "kev-nco"; "siv:"; "nug-tus-password"; "ua-tiav"; "tos:"; "sijhawm"; "nruab-hnub"; "hnub:"; "lub-hli"; "lub-hli:"; "xyoo"; "xyoo:"; "teev"; "teev:"; "feeb"; "feeb:"; "ob"; "ob:"; "hnub-so"; "hnub-ntawm-lub-xyoo"; "lub-lim-tiam"; "cheeb-tsam"; "thaj-chaw:"; "Lub-Hom-Phiaj"; "Nil"; "Tub-Npis"; "Muaj-tseeb"; "Tsis-tseeb"; "Tooj"; "Ntawv-nyeem"; "Cai"; "Sau"; "Daim-ntawv-qhia"; "Stdout"; "Cov-ntaub-ntawv"; "Kev-Pabcuam"; "Lub-sij-hawm-ntawd"; "Kev-Qhia"; "Qhov-chaw-nyob"]);
  ("hr", ["novi"; "jednaka-je:"; "="; "≠"; "na:to:"; "odgovoriti:"; "odgovoriti:i:"; "odgovoriti:i:i:"; "odgovoriti:i:i:i:"; "tip"; "ništa?"; "sebe"; "čini"; "učinio"; "ne:"; "da:"; "poruka:argumenti:"; "tekst"; "broj"; "boolean"; "slučaj:to:"; "naučiti:sredstva:"; "opis"; "ponavljajući"; "pauza"; "nastaviti"; "drugo:"; "ne"; "_i:"; "ni:"; "ili:"; "ili:ili:"; "kopirati"; "+"; "dodati:"; "-"; "oduzeti:"; "×"; "pomnožiti-sa:"; "÷"; "podijeliti-po:"; ">"; "≥"; "<"; "≤"; "ostatak-pri-djeljenju:"; "niska"; "visoka"; "krug"; "apsolutan"; "korijen"; "vlast:"; "neparan?"; "paran?"; "pozitivan?"; "negativan?"; "sirov"; "između-i:__:"; "značajka:"; "značajka"; "sin"; "cos"; "tan"; "atan"; "log"; "dužina"; "od:dužina:"; "ukloniti-okolne-prostore"; "lik:"; "pronaći:"; "posljednji:"; "zamijeniti:s:"; "podjela:"; "velikim-slovima"; "malim-slovima"; "pomak:"; "sufiks:"; "međunarodni-broj"; "hash:"; "likovi"; "sadrži:"; "usporediti:"; "objekt"; "trčanje"; "primjenjuju-se:"; "primjenjuju-se:a:"; "primjenjuju-se:a:a:"; "postavljen:vrijednost:"; "pogreška:"; "ulov:"; "postupak"; "dok:"; "←"; "~"; ";"; "prefiks:"; "uzmi-prvi"; "računati"; "pridružiti:"; "uzmi-najnoviji"; "položaj:"; "na:"; "?"; "sortirati:"; "staviti:na:"; "zamijeniti:dužina:_s:"; "popis:"; "svaki:"; "minimum"; "maksimum"; "posljednji"; "predzadnji"; "prvi"; "ispuniti:_s:"; "po:"; "unosi"; "vrijednosti"; "ima:"; "pisati:"; "stop"; "novi:"; "staza"; "čitati"; "postoji"; "veličina"; "izbrisati"; "serija:"; "argument:"; "argumenti"; "postavka:"; "pitati"; "postavljanje:vrijednost:"; "čisto-memorije"; "memorija:"; "urednost:"; "naredba-sustava:"; "ulazni"; "rumenilo"; "memorija"; "koristiti:"; "pitati-lozinku"; "kraj"; "čekati:"; "vrijeme"; "dan"; "dan:"; "mjesec"; "mjesec:"; "godina"; "godina:"; "sat"; "sat:"; "minuta"; "minuta:"; "drugi"; "drugi:"; "radni-dan"; "dan-u-godini"; "tjedan"; "zona"; "zona:"; "Objekt"; "Ništa"; "Da-ili-Ne"; "Da"; "Ne"; "Broj"; "Tekst"; "Kodirati"; "Serija"; "Popis"; "Stdout"; "Datoteka"; "Program"; "Trenutak"; "Uputa"; "Mjesto-datoteke"]);
  ("ht", ["nouvo"; "egal:"; "="; "≠"; "sou:fè:"; "reponn:"; "reponn:epi:"; "reponn:ak:ak:"; "reponn:ak:ak:ak:"; "di-ki-kalite"; "nil?"; "mwen-menm"; "fè"; "fini"; "fo:"; "vre:"; "mesaj:agiman:"; "fil"; "nimewo"; "boolean"; "ka:fè:"; "aprann:vle-di:"; "ekri"; "repetitif"; "kraze"; "kontinye"; "lòt-bagay:"; "pa"; "e:"; "ni:"; "oswa:"; "oswa:oswa:"; "kopi"; "+"; "ajoute:"; "-"; "fè-soustraksyon:"; "×"; "miltipliye-pa:"; "÷"; "divize-pa:"; ">"; "≥"; "<"; "≤"; "modulo:"; "etaj"; "plafon"; "wonn"; "absoli"; "rasin-kare"; "pouvwa:"; "enpè?"; "menm?"; "pozitif?"; "negatif?"; "kri"; "ant:ak:"; "kalifye:"; "kalifikasyon"; "sin"; "cos"; "_tan"; "atan"; "log"; "longè"; "soti-nan:longè:"; "retire-espas-ki-antoure-yo"; "karaktè:"; "jwenn:"; "dènye:"; "ranplase:ak:"; "divize:"; "majiskil"; "miniskil"; "konpanse:"; "sifiks:"; "nimewo-entènasyonal"; "hash:"; "karaktè"; "gen-ladan:"; "konpare:"; "objè"; "kouri"; "aplike:"; "aplike:ak:"; "aplike:ak:ak:"; "mete:valè:"; "erè:"; "trape:"; "pwosedi"; "pandan-ke:"; "←"; "~"; ";"; "prefiks:"; "kale"; "konte"; "rantre-nan:"; "koupe"; "pozisyon:"; "nan:"; "?"; "sòt:"; "mete:nan:"; "ranplase:longè:ak:"; "kat:"; "chak:"; "minimòm"; "maksimòm"; "dènye"; "dezyèm-dènye"; "premye"; "ranpli:ak:"; "pa:"; "antre"; "valè-yo"; "gen:"; "ekri:"; "kanpe"; "nouvo:"; "chemen"; "li"; "egziste"; "gwosè"; "efase"; "lis:"; "agiman:"; "agiman"; "anviwònman:"; "mande"; "anviwònman:valè:"; "memwa-pwòp"; "memwa:"; "tidty:"; "machin:"; "opinyon"; "kole"; "memwa"; "itilize:"; "mande-modpas"; "fen"; "tann:"; "tan"; "jou"; "jou:"; "mwa"; "mwa:"; "ane"; "ane:"; "èdtan"; "èdtan:"; "minit"; "minit:"; "dezyèm-fwa"; "dezyèm-fwa:"; "jou-lasemèn"; "jou-nan-ane-an"; "semèn"; "zòn"; "zòn:"; "Objè"; "Nil"; "Boolean"; "Vrè"; "Fo"; "Nimewo"; "Fisèl"; "Kòd"; "Lis"; "Kat"; "Stdout"; "File"; "Pwogram"; "Moman"; "Enstriksyon"; "Kote-dosye"]);
  ("hu", ["új"; "egyenlő:"; "="; "≠"; "on:nem:"; "reagál:"; "reagálnak:és:"; "reagálnak:és:és:"; "reagálnak:és:és:és:"; "típus"; "üres?"; "magamat"; "csinál"; "kész"; "hamis:"; "igaz:"; "üzenet:érvek:"; "szöveg"; "szám"; "logikai"; "ügy:nem:"; "tanulni:eszköz:"; "code"; "rekurzív"; "állj-meg"; "folytatni"; "más:"; "nem"; "és:"; "sem:"; "vagy:"; "az-egyik:vagy:"; "másolat"; "+"; "összeadni:"; "-"; "kivonás:"; "×"; "szorozva:"; "÷"; "oszd-el:"; ">"; "≥"; "<"; "≤"; "modulo:"; "lefelé-kerekítve"; "felfelé-kerekítve"; "kerekítve"; "abszolút"; "négyzetgyök"; "erő:"; "páratlan?"; "páros?"; "pozitív?"; "negatív?"; "nyers"; "között:és:"; "minősítése:"; "minősítése"; "sin"; "cos"; "tan"; "atan"; "log"; "hossz"; "re:hossza:"; "eltávolítás-környező-terek"; "karakter:"; "megtalálja:"; "utolsó:"; "cseréld:ki:"; "hasított:"; "nagybetűs"; "kisbetű"; "eltolt:"; "append:"; "nemzetközi-számot"; "hash:"; "karakterek"; "tartalmazza:"; "össze:"; "tárgy"; "rajt"; "alkalmaz:"; "alkalmazni:és:"; "alkalmazni:és:és:"; "érték:beállítása:"; "hiba:"; "hibakezelés:"; "eljárás"; "míg:"; "←"; "~"; ";"; "betoldott:"; "vegye-először"; "számol"; "csatlakozik:"; "vegye-utoljára"; "pozíció:"; "nál-nél:"; "?"; "fajta:"; "magyarán:itt:"; "cserélni:hossza:az:"; "lista:"; "minden-egyes:"; "minimális"; "maximális"; "utolsó"; "utolsó-előtti"; "első"; "töltse:tölteléket:"; "által:"; "bejegyzés"; "értékeket"; "van:"; "ír:"; "stop"; "új:"; "pálya"; "olvas"; "létezik"; "méret"; "töröl"; "sorozat:"; "érv:"; "érvek"; "beállítás:"; "kérdez"; "beállítás:értéke:"; "tiszta-memória"; "memória:"; "tisztaság:"; "rendszerparancs:"; "bemenet"; "flush"; "memória"; "használat:"; "kérj-jelszót"; "vég"; "várjon:"; "idő"; "nap"; "nap:"; "hónap"; "hónap:"; "év"; "év:"; "óra"; "óra:"; "perc"; "perc:"; "második"; "második:"; "hétköznap"; "nap-az-évben"; "hét"; "zóna"; "zóna:"; "Tárgy"; "Üres"; "Logikai"; "Igaz"; "Hamis"; "Szám"; "Szöveg"; "Feladat"; "Sorozat"; "Lista"; "Stdout"; "Fájl"; "Program"; "Pillanat"; "Utasítás"; "A-fájl-helye"]);
  ("hy", ["նոր"; "հավասար-է."; "="; "≠"; "on.անել."; "պատասխանել."; "պատասխանել.և."; "պատասխանել.և.և."; "պատասխանել.և.և.և."; "տիպ"; "դատարկ?"; "ինքս-ինձ"; "արա"; "կատարած"; "սխալ."; "լավ."; "հաղորդագրություն-.փաստարկներ."; "փոխարկել-տեքստի"; "թիվ"; "լուծել?"; "գործ.անել."; "սովորել.նշանակում-է."; "կոդ"; "ռեկուրսիվ"; "ընդմիջում"; "շարունակել"; "էլի."; "ոչ"; "և."; "ոչ-էլ."; "կամ."; "կամ.կամ."; "պատճենել"; "+"; "ավելացնել."; "-"; "հանել."; "×"; "բազմապատկեք."; "÷"; "բաժանեք."; ">"; "≥"; "<"; "≤"; "մոդուլո."; "ցածր"; "բարձր"; "կլոր"; "բացարձակ"; "քառակուսի-արմատ"; "ուժ."; "կենտ?"; "նույնիսկ?"; "դրական?"; "բացասական"; "հում"; "-ից.-ը."; "որակավորում."; "որակավորում"; "sin"; "cos"; "tan"; "atan"; "log"; "երկարությունը"; "սկսած.երկարությունից."; "հեռացնել-շրջակա-տարածքները"; "բնավորությունը."; "գտնել."; "վերջին."; "հին.նոր."; "պառակտում."; "մեծատառ"; "փոքրատառ"; "օֆսեթ."; "վերջածանց."; "միջազգային-համարը"; "հեշ."; "նիշ"; "պարունակում-է."; "համեմատել."; "որպես-օբյեկտ"; "վազել"; "դիմել."; "կիրառել.և."; "կիրառել.և.և."; "սահմանել.արժեքը."; "բացառություն."; "բռնել."; "կարգը"; "մինչդեռ."; "←"; "~"; ";"; "նախածանց."; "Վերցրեք-առաջին-օբյեկտը"; "հաշվել"; "միանալ."; "Վերցրեք-վերջին-իրը"; "դիրք."; "մասին."; "?"; "տեսակավորել."; "տալ.համար."; "փոխարինել.երկարությունը.']հետևյալով."; "Կազմեք-ցուցակ."; "յուրաքանչյուրը."; "նվազագույն"; "առավելագույնը"; "վերջին"; "երկրորդ-վերջին"; "առաջին"; "լրացնել.նոր."; "կողմից."; "գրառումներ"; "արժեքները"; "ունի."; "գրել."; "դադարեցնել"; "նոր."; "ուղին"; "կարդալ"; "գոյություն-ունի"; "չափը"; "ջնջել"; "ցուցակ."; "փաստարկ."; "փաստարկներ"; "պարամետր."; "հարցնել"; "պարամետր.արժեք."; "մաքուր-հիշողություն"; "հիշողություն."; "կոկիկություն."; "Համակարգի-հրաման."; "մուտքագրում"; "փչել"; "հիշողություն"; "օգտագործել."; "գաղտնաբառ-հարցնել"; "վերջ"; "սպասել."; "ժամանակ"; "օր"; "օր."; "ամիս"; "ամիս."; "տարի"; "տարի."; "ժամ"; "ժամ."; "րոպե"; "րոպե."; "երկրորդը"; "երկրորդ."; "շաբաթ-օր"; "տարվա-օրը"; "շաբաթ"; "գոտի"; "գոտի."; "Առարկա"; "դատարկ"; "լուծում"; "լավ"; "սխալ"; "Թիվ"; "տեքստ"; "աշխատանք"; "շարքը"; "ցուցակը"; "Stdout"; "Ֆայլ"; "Ծրագիր"; "Պահը"; "հրահանգ"; "ֆայլի-գտնվելու-վայրը"]);
  ("id", ["baru"; "sama-dengan:"; "="; "≠"; "pada:lakukan:"; "menanggapi:"; "tanggapi:dan:"; "merespon:dan:dan:"; "merespon:dan:dan:dan:"; "tipe"; "void?"; "diri"; "melakukan"; "selesai"; "salah:"; "benar:"; "pesan:argumen:"; "tali"; "jumlah"; "boolean"; "kasus:lakukan:"; "belajar:berarti:"; "code"; "rekursif"; "istirahat"; "terus"; "lain:"; "tidak"; "dan:"; "maupun:"; "atau:"; "baik:atau:"; "salinan"; "+"; "menambahkan:"; "-"; "mengurangi:"; "×"; "kalikan-dengan:"; "÷"; "dibagi-dengan:"; ">"; "≥"; "<"; "≤"; "modulo:"; "dibulatkan-ke-bawah-adalah"; "dibulatkan-adalah"; "bulat"; "mutlak"; "akar-pangkat-dua"; "kekuasaan:"; "ganjil?"; "genap?"; "positif?"; "negatif?"; "mentah"; "diantara:dan:"; "memenuhi-syarat:"; "kualifikasi"; "sin"; "cos"; "tan"; "atan"; "log"; "panjangnya"; "dari:panjang:"; "menghapus-ruang-di-sekitarnya"; "karakter:"; "temukan:"; "terakhir:"; "ubah:dengan:"; "membagi:"; "huruf-besar"; "huruf-kecil"; "mengimbangi:"; "tambahkan-ke-akhir:"; "nomor-internasional"; "hash:"; "karakter"; "mengandung:"; "membandingkan:"; "obyek"; "memulai"; "menerapkan:"; "terapkan:dan:"; "terapkan:dan:dan:"; "set:nilai:"; "kesalahan:"; "menangkap:"; "prosedur"; "sementara:"; "←"; "~"; ";"; "menambahkan-ke-awal:"; "ambil-yang-pertama"; "menghitung"; "ikuti:"; "ambil-yang-terakhir"; "posisi:"; "di:"; "?"; "menyortir:"; "menempatkan:di:"; "ganti:panjang:dengan:"; "daftar:"; "setiap:"; "minimum"; "maksimum"; "terakhir"; "kedua-terakhir"; "pertama"; "isi:dengan:"; "oleh:"; "entri"; "nilai-nilai"; "memiliki:"; "menulis:"; "berhenti"; "baru:"; "jalan"; "baca"; "ada"; "ukuran"; "menghapus"; "seri:"; "argumen:"; "argumen"; "pengaturan:"; "meminta"; "pengaturan:nilai:"; "memori-bersih"; "penyimpanan:"; "kerapian:"; "Perintah-Sistem:"; "memasukkan"; "menyiram"; "penyimpanan"; "menggunakan:"; "minta-kata-sandi"; "akhir"; "tunggu:"; "waktu"; "hari"; "hari:"; "bulan"; "bulan:"; "tahun"; "tahun:"; "jam"; "jam:"; "menit"; "menit:"; "kedua"; "kedua:"; "hari-kerja"; "hari-dalam-setahun"; "minggu"; "daerah"; "daerah:"; "Obyek"; "Void"; "Boolean"; "Benar"; "Salah"; "Jumlah"; "Tali"; "Kode"; "Seri"; "Daftar"; "Stdout"; "Mengajukan"; "Program"; "Saat"; "Petunjuk"; "Lokasi-file"]);
  ("ig", ["ohuru"; "nhatanha:"; "="; "≠"; "na:ime:"; "zaghachi:"; "zaghachi:na:"; "zaghachi:na:na:"; "zaghachi:na:na:na:"; "ụdị"; "nil?"; "onwe-m"; "mee"; "emeela"; "ụgha:"; "eziokwu:"; "ozi:arụmụka:"; "eriri"; "nọmba"; "boolean"; "ikpe:mee:"; "na-amụta:pụtara:"; "nkọwa"; "recursive"; "gbarie"; "gaa-n']ihu"; "ozo:"; "ọ-bụghị"; "na:"; "ọ-bụghịkwa:"; "ma-ọ-bụ:"; "ma:obu:"; "i-omi"; "+"; "tinye:"; "-"; "iwepu:"; "×"; "mụbaa-site-na:"; "÷"; "kee-site-na:"; ">"; "≥"; "<"; "≤"; "modulo:"; "ala"; "ulọ"; "gburugburu"; "zuru-oke"; "okuku-akuku"; "ike:"; "odd?"; "ọbụlagodi?"; "nke-oma?"; "adịghị-njọ?"; "nke-ndu"; "n']etiti:na:"; "tozuru-oke:"; "ntozu"; "sin"; "cos"; "tan"; "atan"; "log"; "ogologo"; "site-na:ogologo:"; "wepụ-oghere-ndị-gbara-ya-gburugburu"; "agwa:"; "chọta:"; "ikpeazu:"; "dochie:na:"; "kewaa:"; "nnukwu-akpa"; "okpu-ukwu"; "ngbanwe:"; "append:"; "nọmba-mba"; "hash:"; "odide"; "nwere:"; "tulee:"; "ebumnuche"; "na-agba-ọsọ"; "itinye:"; "itinye:na:"; "tinye:na:na:"; "setịpụrụ:uru:"; "njehie:"; "gbute:"; "usoro"; "mgbe:"; "←"; "~"; ";"; "gboo:"; "nnofega"; "gụọ-ọnụ-ọgụgụ"; "sonyere:"; "gbaputa"; "ọnọdụ:"; "ebe:"; "?"; "ụdị:"; "tinye:na:"; "dochie:ogologo:na:"; "maapu:"; "nke-ọ-bụla:"; "opekempe"; "kacha"; "nke-ikpeazu"; "nke-abụọ-ikpeazụ"; "mbụ"; "mejupụta:na:"; "site-na:"; "ndenye"; "ụkpụrụ"; "gụnyere:"; "dee:"; "kwụsị"; "ohuru:"; "zọ"; "gụọ"; "dị"; "nha"; "ihichapụ"; "ndepụta:"; "arụmụka:"; "arụmụka"; "mwube:"; "jụọ"; "ọnọdụ:uru:"; "ebe-nchekwa-dị-ọcha"; "ebe-nchekwa:"; "ihe-oma:"; "usoro:"; "ntinye"; "fepu"; "ebe-nchekwa"; "iji:"; "jụọ-paswọọdụ"; "njedebe"; "chere:"; "oge"; "ụbọchị"; "ụbọchị:"; "ọnwa"; "ọnwa:"; "afọ"; "afọ:"; "elekere"; "elekere:"; "nkeji"; "nkeji:"; "nke-abuo"; "nke-abuo:"; "ubochi-izu"; "ụbọchị-nke-afọ"; "izu"; "mpaghara"; "mpaghara:"; "Ebumnuche"; "Nil"; "Boolean"; "Eziokwu"; "Gha"; "Nọmba"; "Ederede"; "Ọrụ"; "Ndepụta"; "Maapụ"; "Stdout"; "Faịlụ"; "Mmemme"; "Oge"; "Ntụziaka"; "Ọnọdụ-faịlụ"]);
  ("is", ["nýtt"; "jafngildir:"; "="; "≠"; "á:gera:"; "svara:"; "svara:og:"; "svara:og:og:"; "svara:og:og:og:"; "gerð"; "tómt?"; "sjálfum-mér"; "gera"; "gert"; "rangt:"; "satt:"; "skilaboð:rök:"; "texti"; "númer"; "boolean"; "mál:gera:"; "læra:þýðir:"; "code"; "endurkvæma"; "brot"; "halda-áfram"; "annar:"; "ekki"; "og:"; "né:"; "eða:"; "annaðhvort:eða:"; "afrita"; "+"; "bæta-við:"; "-"; "draga:"; "×"; "margfalda-með:"; "÷"; "deila-með:"; ">"; "≥"; "<"; "≤"; "mát:"; "námundað-niður"; "námundað-upp"; "ávöl"; "alger"; "kvaðratrót"; "kraftur:"; "oddatala?"; "slétt?"; "jákvætt?"; "neikvætt?"; "hrár"; "milli:og:"; "hæfi:"; "hæfi"; "sin"; "cos"; "tan"; "atan"; "log"; "lengd"; "frá:lengd:"; "fjarlægja-nærliggjandi-rými"; "karakter:"; "finna:"; "síðast:"; "skipta-út:fyrir:"; "skipta:"; "hástafi"; "lágstafir"; "á-móti:"; "bætið-við:"; "alþjóðlegt-númer"; "kjötkássa:"; "persónur"; "inniheldur:"; "bera-saman:"; "markmið"; "hlaupa"; "eiga-við:"; "eiga-við:og:"; "eiga-við:og:og:"; "setja:gildi:"; "villa:"; "villa-meðhöndlun:"; "málsmeðferð"; "meðan:"; "←"; "~"; ";"; "fyrirfram:"; "taktu-fyrsta"; "telja"; "taka-þátt:"; "taka-síðasta"; "staða:"; "kl:"; "?"; "flokka:"; "settu:í:"; "skipta-um:lengd:með:"; "listi:"; "hver:"; "lágmarki"; "hámark"; "síðast"; "næst-síðast"; "fyrst"; "fylla:með:"; "eftir:"; "færslur"; "gildi"; "hefur:"; "skrifa:"; "hætta"; "_nýtt:"; "leið"; "lesa"; "er-til"; "stærð"; "eyða"; "röð:"; "rifrildi:"; "rök"; "stilling:"; "spyrja"; "stilling:gildi:"; "hreint-minni"; "minni:"; "snyrtimenni:"; "kerfisskipun:"; "inntak"; "skola"; "minni"; "notkun:"; "spyrja-lykilorð"; "enda"; "bíddu:"; "tíma"; "dagur"; "dagur:"; "mánuði"; "mánuður:"; "ári"; "ár:"; "klukkutíma"; "klukkustund:"; "mínútu"; "mínúta:"; "annað"; "annað:"; "virka-daga"; "dagur-ársins"; "vika"; "svæði"; "svæði:"; "Markmið"; "Tómt"; "Boolean"; "Satt"; "Rangt"; "Fjöldi"; "Texti"; "Verkefni"; "Röð"; "Listi"; "Stdout"; "Skrá"; "Forrit"; "Stund"; "Kennsla"; "Staðsetning-skráar"]);
  ("it", ["nuovo"; "equivale:"; "="; "≠"; "on:fare:"; "rispondere:"; "rispondere:e:"; "rispondere:e:e:"; "rispondere:e:e:e:"; "genere"; "nil?"; "me-stessa"; "fare"; "fatto"; "falso:"; "vero:"; "messaggio:argomenti:"; "testo"; "numero"; "booleano"; "caso:fare:"; "imparare:significa:"; "code"; "ricorsivo"; "interrompere"; "continua"; "altro:"; "non"; "e:"; "né:"; "o:"; "o:o:"; "copia"; "+"; "inserisci:"; "-"; "sottrarre:"; "×"; "moltiplicato-per:"; "÷"; "dividi-per:"; ">"; "≥"; "<"; "≤"; "modulo:"; "arrotondato-per-difetto"; "arrotondato-per-eccesso"; "arrotondato"; "assoluto"; "radice-quadrata"; "energia:"; "dispari?"; "pari?"; "positivo?"; "negativo?"; "crudo"; "tra:e:"; "qualificarsi:"; "qualificazione"; "sin"; "cos"; "tan"; "atan"; "log"; "lunghezza"; "da:lunghezza:"; "rimuovere-gli-spazi-circostanti"; "carattere:"; "trova:"; "scorso:"; "sostituirlo:con:"; "diviso:"; "maiuscolo"; "minuscolo"; "compensare:"; "aggiungere:"; "numero-internazionale"; "hash:"; "personaggi"; "contiene:"; "confrontare:"; "oggetto"; "correre"; "applicare:"; "applica:_e:"; "applica:e:e:"; "valore:impostato:"; "errore:"; "catturare:"; "procedura"; "mentre:"; "←"; "~"; ";"; "anteporre:"; "prendi-il-primo"; "contare"; "aderire:"; "prendi-l'ultimo"; "posizione:"; "a:"; "?"; "ordinare:"; "mettere:a:"; "sostituire:lunghezza:con:"; "elenco:"; "ogni:"; "minimo"; "massimo"; "scorso"; "penultimo"; "primo"; "riempire:con:"; "di:"; "inserimenti"; "valori"; "ha:"; "scrivi:"; "stop"; "nuovo:"; "sentiero"; "leggere"; "esiste"; "dimensione"; "elimina"; "serie:"; "discussione:"; "argomenti"; "ambientazione:"; "chiedi"; "impostazione:valore:"; "la-memoria-pulita"; "memoria:"; "ordine:"; "Comando-di-sistema:"; "ingresso"; "sciacquone"; "memoria"; "uso:"; "chiedi-la-password"; "fine"; "aspettare:"; "tempo"; "giorno"; "giorno:"; "mese"; "mese:"; "anno"; "anno:"; "ora"; "ora:"; "minuto"; "minuto:"; "secondo"; "secondo:"; "giorno-feriale"; "giorno-dell']anno"; "settimana"; "zona"; "zona:"; "Oggetto"; "Zero"; "Booleano"; "Vero"; "Falso"; "Numero"; "Testo"; "Compito"; "Serie"; "Elenco"; "Stdout"; "File"; "Programma"; "Momento"; "Istruzioni"; "Posizione-del-file"]);
  ("ja", ["新着"; "等しい:"; "="; "≠"; "質問:ともかく:"; "応答:"; "応答:および:"; "応答:および:および:"; "応答:および:および:および:"; "タイプ"; "ナイル？"; "自分"; "行う"; "終わった"; "誤り:"; "真:"; "メッセージ:引数:"; "テキストに変換"; "番号を作成する"; "_ブール"; "ケース:する:"; "学ぶ:手段:"; "コード"; "再帰的"; "ブレーク"; "継続する"; "そうしないと:"; "ない"; "そして:"; "また:"; "または:"; "これら二つのうちの一つ:または:"; "写す"; "+"; "追加:"; "-"; "減算:"; "×"; "掛ける:"; "÷"; "除算:"; ">"; "≥"; "<"; "≤"; "モジュロ:"; "四捨五入は"; "切り上げは"; "完成は"; "絶対の"; "平方根"; "パワー:"; "は奇数です？"; "は偶数です？"; "ポジティブ？"; "負？"; "単純化"; "間:と:"; "資格:"; "資格"; "sin"; "cos"; "tan"; "atan"; "log"; "長さ"; "から:長さ:"; "周囲のスペースを削除"; "キャラクター:"; "見つける:"; "最終:"; "置換:交換:"; "スプリット:"; "大文字"; "小文字"; "スキップ:"; "最後に追加:"; "国際番号"; "ハッシュ:"; "キャラクター"; "含む:"; "比較:"; "オブジェクトとして"; "スタート"; "適用する:"; "適用する:この:"; "適用する:この:この:"; "セット:値:"; "エラー:"; "キャッチ:"; "手順"; "その間:"; "←"; "~"; ";"; "先頭に追加:"; "最初のものを取る"; "カウント"; "参加:"; "テイク-ザ-ラスト"; "ポジション:"; "で:"; "?"; "ソート:"; "要素:値:"; "で置換:長さ:交換:"; "リスト:"; "各:"; "最小"; "最大"; "最終"; "_2番目の最後"; "最初"; "塗りつぶし:塗りつぶし:"; "沿って:"; "すべての検索語"; "すべての値"; "持っています:"; "書く:"; "文末"; "新着:"; "ファイルの場所?"; "読んだ"; "存在する"; "サイズ"; "削除する"; "シリーズ:"; "引数:"; "引数"; "設定:"; "尋ねる"; "設定:値:"; "クリーンメモリ"; "メモリ:"; "整頓:"; "システムコマンド:"; "入力"; "流す"; "記憶"; "使用する:"; "パスワード"; "終わり"; "待つ:"; "時間"; "日?"; "日:"; "月?"; "月:"; "年?"; "年:"; "時間?"; "時間:"; "分?"; "分:"; "第二?"; "第二:"; "平日?"; "今年の日?"; "週間?"; "ゾーン?"; "ゾーン:"; "対象"; "なし"; "ブール"; "本当"; "誤り"; "_数"; "テキスト"; "タスク"; "シリーズ"; "リスト"; "Stdout"; "ファイル"; "プログラム"; "瞬間"; "命令"; "ファイルの場所"]);
  ("jv", ["anyar"; "podo-karo:"; "="; "≠"; "pada:nindakake:"; "mangsuli:"; "nanggapi:lan:"; "nanggapi:lan:lan:"; "nanggapi:lan:lan:lan:"; "ketik"; "Boten?"; "aku"; "nindakake"; "rampung"; "ora:"; "ya:"; "pesen:bantahan:"; "tèks"; "nomer"; "boolean"; "kasus:apa:"; "sinau:tegese:"; "ditulis-mudhun"; "rekursif"; "tugel"; "terus"; "liyane:"; "dudu"; "lan:"; "uga:"; "utawa:"; "siji:-salah-siji:"; "nyalin"; "+"; "nambah:"; "-"; "nyuda:"; "×"; "multiply-dening:"; "÷"; "dibagi-dening:"; ">"; "≥"; "<"; "≤"; "modulo:"; "kurang"; "dhuwur"; "dibunderaké"; "mutlak"; "oyod-oyod"; "kekuwatan:"; "ganjil?"; "genap?"; "positif?"; "negatip?"; "mentahan"; "antarane:lan:"; "kualifikasi:"; "kualifikasi"; "sin"; "cos"; "tan"; "atan"; "log"; "dawa"; "saka:dawa:"; "mbusak-spasi-sekitar"; "karakter:"; "nemokake:"; "pungkasan:"; "ngganti:nganggo:"; "pisah:"; "kapital"; "ruang-cilik"; "ngimbangi:"; "lampiran:"; "nomer-internasional"; "ngrembug:"; "aksara"; "ngemot:"; "mbandhingake:"; "obyek"; "mlayu"; "ngetrapake:"; "aplikasi:lan:"; "aplikasi:lan:lan:"; "set:regane:"; "kesalahan:"; "nyekel:"; "prosedur"; "nalika:"; "←"; "~"; ";"; "nyawisake:"; "njupuk-obyek-pisanan"; "ngitung"; "gabung:"; "njupuk-obyek-pungkasan"; "posisi:"; "ing:"; "?"; "urut:"; "sijine:ing:"; "ngganti:dawa:karo:"; "peta:"; "masing-masing:"; "minimal"; "maksimal"; "terakhir"; "kaloro-pungkasan"; "pisanan"; "isi:karo:"; "dening:"; "entri"; "angka"; "wis:"; "nulis:"; "mandheg"; "anyar:"; "path"; "maca"; "ana"; "ukuran"; "mbusak"; "dhaptar:"; "dalil:"; "bantahan"; "setelan:"; "takon"; "setelan:regane:"; "memori-resik"; "memori:"; "kesenengen:"; "sistèm-printah:"; "mlebu"; "siram"; "memori"; "nggunakake:"; "takon-sandhi"; "mungkasi"; "ngenteni:"; "wektu"; "dina"; "dina:"; "wulan"; "wulan:"; "taun"; "taun:"; "jam"; "jam:"; "menit"; "menit:"; "nomer-loro"; "kapindho:"; "dino-minggu"; "dina-taun"; "minggu"; "zona"; "zona:"; "Obyek"; "Boten"; "Ya-ora"; "Ya"; "Ora"; "Nomer"; "Tèks"; "Kode"; "Dhaptar"; "Peta"; "Stdout"; "File"; "Program"; "Wektu"; "Pitunjuk"; "Lokasi-file"]);
  ("ka", ["ახალი"; "ტოლია:"; "="; "≠"; "on:გააკეთე:"; "პასუხი:"; "პასუხი:და:"; "პასუხი:და:და:"; "პასუხი:და:და:და:"; "ტიპი"; "არაფერი?"; "მე-თვითონ"; "კეთება"; "შესრულებულია"; "შეცდომა:"; "კარგი:"; "გაგზავნა:არგუმენტები:"; "გადაიყვანეთ-ტექსტში"; "ნომერი"; "ბოულიანი"; "საქმე:გააკეთე:"; "ისწავლეთ:ნიშნავს:"; "აღწერა"; "რეკურსიული"; "შესვენება"; "განაგრძე"; "სხვა:"; "არა"; "და:"; "არც:"; "ან:"; "ან:ან:"; "ასლი"; "+"; "დამატება:"; "-"; "გამოკლება:"; "×"; "გამრავლებით:"; "÷"; "იყოფა:"; ">"; "≥"; "<"; "≤"; "მოდული:"; "დაბალი"; "მაღალი"; "მრგვალი"; "აბსოლუტური"; "კვადრატული-ფესვი"; "ძალა:"; "უცნაური?"; "თუნდაც?"; "დადებითი?"; "უარყოფითი?"; "ნედლეული"; "მინიმალური:მაქსიმალური:"; "დამახასიათებელი:"; "დამახასიათებელი"; "sin"; "cos"; "tan"; "atan"; "log"; "სიგრძე"; "დასაწყისი:სიგრძე:"; "მოიცილეთ-მიმდებარე-სივრცეები"; "ხასიათი:"; "იპოვნე:"; "ბოლო:"; "ძველი:ახალი:"; "გაყოფა:"; "დიდი-ასო"; "მცირე-ზომის"; "ოფსეტური:"; "სუფიქსი:"; "საერთაშორისო-ნომერი"; "ჰაში:"; "პერსონაჟები"; "შეიცავს:"; "შედარება:"; "როგორც-ობიექტი"; "გარბოდა"; "მიმართვა:"; "მიმართვა:და:"; "ვრცელდება:და:და:"; "მითითებული:მნიშვნელობა:"; "გამონაკლისი:"; "დაჭერა:"; "პროცედურა"; "ხოლო:"; "←"; "~"; ";"; "პრეფიქსი:"; "პირველი-ობიექტის-მიღება"; "ითვლიან"; "შეერთება:"; "ვიღებ-ბოლო-ობიექტი"; "პოზიცია:"; "ობიექტი:"; "?"; "დალაგება:"; "დააყენა:ადგილი:"; "შეცვლა:სიგრძე:ერთად:"; "რუკების:"; "თითოეული:"; "მინიმალური"; "მაქსიმალური"; "ბოლო"; "მეორე-ბოლო"; "პირველი"; "შეავსეთ:მასალა:"; "ავტორი:"; "ჩანაწერები"; "ღირებულებები"; "აქვს:"; "დაწერე:"; "შეჩერება"; "ახალი:"; "ბილიკი"; "წაკითხვა"; "არსებობს"; "ზომა"; "წაშლა"; "სია:"; "არგუმენტი:"; "არგუმენტები"; "გარემო:"; "იკითხეთ"; "გარემო:მნიშვნელობა:"; "სუფთა-მეხსიერება"; "მეხსიერება:"; "სისუფთავე:"; "სისტემის-ბრძანება:"; "შეყვანა"; "ფლეში"; "მეხსიერება"; "გამოყენება:"; "პაროლის-კითხვა"; "დასასრული"; "დაელოდე:"; "დრო"; "დღეს"; "დღეს:"; "თვე"; "თვე:"; "წელი"; "წელი:"; "საათში"; "საათი:"; "წუთი"; "წუთი:"; "მეორე"; "მეორე:"; "კვირის-დღეები"; "წლის-დღე"; "კვირა"; "ზონა"; "ზონა:"; "ობიექტი"; "არაფერი"; "ბულიონი"; "კარგი"; "შეცდომა"; "რიცხვი"; "ტექსტი"; "ამოცანა"; "სერია"; "სია"; "Stdout"; "ფაილი"; "პროგრამა"; "მომენტი"; "ინსტრუქცია"; "ფაილის-ადგილმდებარეობა"]);
  ("kk", ["жаңа"; "тең:"; "="; "≠"; "бойынша:істеу:"; "жауап-беру:"; "жауап-беру:және:"; "жауап-беру:және:және:"; "жауап-беру:және:және:және:"; "түрі"; "eштеңе?"; "өзім"; "жаса"; "жасалды"; "жалған:"; "шын:"; "хабарлама:дәлелдер:"; "сипаттама"; "саны"; "логикалық"; "жағдай:істеу:"; "білу:білдіреді:"; "код"; "рекурсивті"; "аялдама"; "жалғастыру"; "тағы:"; "емес"; "және:"; "не:"; "немесе:"; "не:немесе:"; "көшіру"; "+"; "қосу:"; "-"; "алу:"; "×"; "көбейту:"; "÷"; "бөлу:"; ">"; "≥"; "<"; "≤"; "модуль:"; "төмен"; "жоғары"; "дөңгелек"; "абсолютті"; "квадрат-түбір"; "қуат:"; "тақ?"; "жұп?"; "позитивті?"; "негативті?"; "шикі"; "арасында:және:"; "біліктілігі:"; "біліктілігі"; "sin"; "cos"; "tan"; "atan"; "log"; "ұзындығы"; "басталуы:ұзындығы:"; "қоршаған-кеңістікті-алып-тастаңыз"; "сипаты:"; "табу:"; "соңғы:"; "ауыстыру:арқылы:"; "Сызат:"; "бас-әріп"; "кіші-әріп"; "өтеу:"; "жұрнақ:"; "халықаралық-нөмір"; "хэш:"; "таңбалар"; "құрамында:"; "салыстыру:"; "объект-ретінде"; "басталуы"; "қолдану:"; "қолдану:және:"; "қолдану:және:және:"; "жиынтығы:мәні:"; "қате:"; "аулау:"; "процедурасы"; "ал:"; "←"; "~"; ";"; "префикс:"; "қасбет-алу"; "санау"; "қосылу:"; "артқа-алу"; "лауазымы:"; "жанында:"; "?"; "сұрыптау:"; "hысан:oрын:"; "ауыстыру:ұзындығы:бар:"; "карта:"; "әрқайсысы:"; "минимум"; "максимум"; "соңғы"; "екінші-соңғысы"; "бірінші"; "толтыру:с:"; "Авторы:"; "жазбалар"; "құндылықтар"; "бар:"; "жазу:"; "Тоқта"; "жаңа:"; "жолы"; "оқыңыз"; "бар"; "мөлшері"; "жою"; "тізім:"; "дәлел:"; "дәлелдер"; "параметрі:"; "сұрау"; "параметр:мән:"; "таза-жад"; "жад:"; "тазалық:"; "жүйелік-команда:"; "енгізу"; "шайқау"; "жады"; "құрал:"; "құпия-сөзді-сұрау"; "Соңы"; "күту:"; "уақыт"; "күні"; "күн:"; "ай"; "айы:"; "жылы"; "жылы:"; "сағат"; "сағат:"; "минут"; "минут:"; "екінші"; "екінші:"; "жұмыс-күні"; "жылдың-күні"; "апта"; "аймағы"; "аймақ:"; "Нысан"; "Eштеңе"; "Бульдік"; "Рас"; "Жалған"; "Сан"; "мәтін"; "тапсырма"; "Тізім"; "Карта"; "Stdout"; "Файл"; "Бағдарлама"; "Момент"; "Нұсқаулық"; "Файл-орны"]);
  ("km", ["ថ្មី"; "ស្មើ:"; "="; "≠"; "បើក:ធ្វើ:"; "ឆ្លើយតប:"; "ឆ្លើយតប:និង:"; "ឆ្លើយតប:និង:និង:"; "ឆ្លើយតប:និង:និង:និង:"; "ប្រភេទ"; "និល?"; "ខ្លួនខ្ញុំ"; "ធ្វើ"; "រួចរាល់"; "មិនពិត:"; "ពិត:"; "សារ:អាគុយម៉ង់:"; "សេចក្ដីពិពណ៌នា"; "បម្លែងទៅជាលេខ"; "សេចក្តីសម្រេច"; "ករណី:ធ្វើ:"; "រៀន:មានន័យថា:"; "សរសេរ"; "ហៅខ្លួនឯង"; "បំបែក"; "បន្ត"; "ផ្សេងទៀត:"; "មិនមែនទេ"; "និង:"; "ទាំងពីរនាក់នេ:"; "ឬ:"; "ឬក៏:ឬក៏:"; "ចម្លង"; "+"; "បន្ថែម:"; "-"; "ដក:"; "×"; "គុណនឹង:"; "÷"; "ចែកដោយ:"; ">"; "≥"; "<"; "≤"; "សល់:"; "ជាន់"; "ពិដាន"; "ជុំ"; "ដាច់ខាត"; "ឫស​ការេ"; "អំណាច:"; "សេស?"; "សូម្បីតែ?"; "វិជ្ជមាន?"; "អវិជ្ជមាន?"; "ឆៅ"; "រវាង:និង:"; "លក្ខណៈសម្បត្តិ:"; "គុណវុឌ្ឍិ"; "sin"; "cos"; "tan"; "atan"; "log"; "ប្រវែង"; "ពី:ប្រវែង:"; "យកចន្លោះនៅជុំវិញ"; "តួអក្សរ:"; "រក:"; "ចុងក្រោយ:"; "ចាស់:ថ្មី:"; "បំបែក:"; "អក្សរ​ធំ"; "អក្សរ​តូច"; "អុហ្វសិត:"; "បច្ច័យ:"; "លេខអន្តរជាតិ"; "ហាស:"; "តួអក្សរ"; "រួមបញ្ចូល:"; "ប្រៀបធៀប:"; "ប្រែទៅជាវត្ថុ"; "រត់"; "អនុវត្ត:"; "អនុវត្ត:និង:"; "អនុវត្ត:និង:និង:"; "សំណុំ:តម្លៃ:"; "កំហុស:"; "ចាប់:"; "នីតិវិធី"; "ខណៈពេលដែល:"; "←"; "~"; ";"; "បុព្វបទ:"; "ផ្លាស់ប្តូរ"; "រាប់"; "ចូលរួម:"; "ប៉ុប"; "ទីតាំង:"; "នៅ:"; "?"; "តម្រៀប:"; "ដាក់:នៅ:"; "ជំនួស:ប្រវែង:-ជាមួយ:"; "ផែនទី:"; "គ្នា:"; "អប្បបរមា"; "អតិបរមា"; "ចុងក្រោយ"; "ទីពីរចុងក្រោយ"; "ដំបូង"; "បំពេញ:វត្ថុ:"; "ដោយ:"; "ធាតុ"; "តម្លៃ"; "មាន:"; "សរសេរ:"; "បញ្ឈប់"; "ថ្មី?:"; "ផ្លូវ"; "អាន"; "មាន"; "ទំហំ"; "លុប"; "បញ្ជី:"; "អាគុយម៉ង់:"; "អាគុយម៉ង់"; "ការកំណត់:"; "សួរ"; "ការកំណត់:តម្លៃ:"; "ការចងចាំស្អាត"; "ការចងចាំ:"; "ភាពតានតឹង:"; "ម៉ាស៊ីន:"; "បញ្ចូល"; "ហូរ"; "ការចងចាំ"; "ប្រើ:"; "សួរពាក្យសម្ងាត់"; "បញ្ចប់"; "រង់ចាំ:"; "ពេលវេលា"; "ថ្ងៃ?"; "ថ្ងៃ:"; "ខែ?"; "ខែ:"; "ឆ្នាំ?"; "ឆ្នាំ:"; "ម៉ោង"; "ម៉ោង:"; "នាទី"; "នាទី:"; "ទីពីរ"; "ទីពីរ:"; "ថ្ងៃធ្វើការ"; "ថ្ងៃនៃឆ្នាំ"; "សប្តាហ៍"; "តំបន់"; "តំបន់:"; "វត្ថុ"; "និល"; "ប៊ូលីន"; "ពិត"; "មិនពិត"; "ចំនួន"; "អត្ថបទ"; "លេខកូដ"; "បញ្ជី"; "ផែនទី"; "Stdout"; "ឯកសារ"; "កម្មវិធី"; "ពេល"; "ការណែនាំ"; "ទីតាំងឯកសារ"]);
  ("kn", ["ಹೊಸದು"; "ಸಮನಾಗಿರುತ್ತದೆ:"; "="; "≠"; "ಆನ್:ಡು:"; "ಪ್ರತಿಕ್ರಿಯಿಸಿ:"; "ಪ್ರತಿಕ್ರಿಯಿಸಿ:ಮತ್ತು:"; "ಪ್ರತಿಕ್ರಿಯಿಸಿ:ಮತ್ತು:ಮತ್ತು:"; "ಪ್ರತಿಕ್ರಿಯಿಸಿ:ಮತ್ತು:ಮತ್ತು:ಮತ್ತು:"; "ಮಾದರಿ"; "ಇಲ್ಲವೇ?"; "ನಾನೇ"; "ಮಾಡಿ"; "ಮುಗಿದಿದೆ"; "ಸುಳ್ಳು:"; "ನಿಜ:"; "ಸಂದೇಶ:ವಾದಗಳು:"; "ವ್ಯಕ್ತಪಡಿಸಲು"; "_ಸಂಖ್ಯೆ"; "ನಿರ್ಧಾರ"; "ಕೇಸ್:ಡು:"; "ಕಲಿಯಿರಿ:ಅರ್ಥ:"; "ಕೋಡ್"; "ಪುನರಾವರ್ತಿತ"; "ವಿರಾಮ"; "ಮುಂದುವರಿಸಿ"; "ಬೇರೆ:"; "ಅಲ್ಲ"; "ಮತ್ತು:"; "_ಅಥವಾ:"; "ಅಥವಾ:"; "ಅಥವಾ:ಅಥವಾ:"; "ನಕಲಿಸಿ"; "+"; "ಸೇರಿಸಿ:"; "-"; "ಕಳೆಯಿರಿ:"; "×"; "ಇವರಿಂದ-ಗುಣಿಸಿ:"; "÷"; "ಇವರಿಂದ-ಭಾಗಿಸಿ:"; ">"; "≥"; "<"; "≤"; "ಮಾಡ್ಯುಲೋ:"; "ನೆಲ"; "ಸೀಲ್"; "ಸುತ್ತಿನಲ್ಲಿ"; "ಸಂಪೂರ್ಣ"; "ವರ್ಗ-ಮೂಲ"; "ಶಕ್ತಿ:"; "ಬೆಸ?"; "ಸಮ?"; "ಧನಾತ್ಮಕ?"; "ಋಣಾತ್ಮಕ?"; "ಕಚ್ಚಾ"; "ನಡುವೆ:ಮತ್ತು:"; "ಅರ್ಹತೆ:"; "ಅರ್ಹತೆ"; "sin"; "cos"; "tan"; "atan"; "log"; "ಉದ್ದ"; "ಇಂದ:ಉದ್ದ:"; "ಸುತ್ತಮುತ್ತಲಿನ-ಸ್ಥಳಗಳನ್ನು-ತೆಗೆದುಹಾಕಿ"; "ಅಕ್ಷರ:"; "ಹುಡುಕಿ:"; "ಕೊನೆಯದು:"; "ಇದರಿಂದ:ಬದಲಿಸು:"; "ವಿಭಜನೆ:"; "ದೊಡ್ಡಕ್ಷರ"; "ಲೋವರ್ಕೇಸ್"; "ಆಫ್‌ಸೆಟ್:"; "ಪ್ರತ್ಯಯ:"; "ಅಂತರರಾಷ್ಟ್ರೀಯ-ಸಂಖ್ಯೆ"; "ಹ್ಯಾಶ್:"; "ಅಕ್ಷರಗಳು"; "ಒಳಗೊಂಡಿದೆ:"; "ಹೋಲಿಸಿ:"; "ವಸ್ತುವಾಗಿ-ಪರಿವರ್ತಿಸಿ"; "ಓಡು"; "ಅನ್ವಯಿಸು:"; "ಅನ್ವಯಿಸು:ಮತ್ತು:"; "ಅನ್ವಯಿಸು:ಮತ್ತು:ಮತ್ತು:"; "ಸೆಟ್:ಮೌಲ್ಯ:"; "ದೋಷ:"; "ಕ್ಯಾಚ್:"; "ವಿಧಾನ"; "ಹಾಗೆಯೇ:"; "←"; "~"; ";"; "ಪೂರ್ವಪ್ರತ್ಯಯ:"; "ಶಿಫ್ಟ್"; "ಎಣಿಕೆ"; "ಸೇರಲು:"; "ಪಾಪ್"; "ಸ್ಥಾನ:"; "ಇಲ್ಲಿ:"; "?"; "ವಿಂಗಡಿಸಿ:"; "ಪುಟ್:ನಲ್ಲಿ:"; "ಬದಲಾಯಿಸಿ:ಉದ್ದ:ಇದರೊಂದಿಗೆ:"; "ದಂಪತಿಗಳು:"; "ಪ್ರತಿಯೊಂದೂ:"; "ಕನಿಷ್ಠ"; "ಗರಿಷ್ಠ"; "ಕೊನೆಯದು"; "ಎರಡನೇ-ಕೊನೆಯ"; "ಪ್ರಥಮ"; "ಭರ್ತಿ:ಇದರೊಂದಿಗೆ:"; "ಇವರಿಂದ:"; "ನಮೂದುಗಳು"; "ಮೌಲ್ಯಗಳನ್ನು"; "ಇದೆ:"; "ಬರೆಯಿರಿ:"; "ನಿಲ್ಲಿಸಿ"; "_ಹೊಸದು:"; "ಮಾರ್ಗ"; "ಓದಿ"; "ಅಸ್ತಿತ್ವದಲ್ಲಿದೆ"; "ಗಾತ್ರ"; "ಅಳಿಸಿ"; "ಅನುಕ್ರಮವನ್ನು-ರಚಿಸಿ:"; "ವಾದ:"; "ವಾದಗಳು"; "ಸೆಟ್ಟಿಂಗ್:"; "ಕೇಳಿ"; "ಸೆಟ್ಟಿಂಗ್:ಮೌಲ್ಯ:"; "ಕ್ಲೀನ್-ಮೆಮೊರಿ"; "ಮೆಮೊರಿ:"; "ಅಚ್ಚುಕಟ್ಟಾದ:"; "ಸಿಸ್ಟಮ್-ಆಜ್ಞೆ:"; "ಇನ್ಪುಟ್"; "ಫ್ಲಶ್"; "ಮೆಮೊರಿ"; "ಬಳಕೆ:"; "ಗುಪ್ತಪದ"; "ಅಂತ್ಯ"; "ನಿರೀಕ್ಷಿಸಿ:"; "ಸಮಯ"; "ದಿನ"; "ದಿನ:"; "ತಿಂಗಳು"; "ತಿಂಗಳು:"; "ವರ್ಷ"; "ವರ್ಷ:"; "ಗಂಟೆ"; "_ಗಂಟೆ:"; "ನಿಮಿಷ"; "ನಿಮಿಷ:"; "ಎರಡನೇ"; "ಎರಡನೇ:"; "ವಾರದ-ದಿನ"; "ವರ್ಷದ-ದಿನ"; "ವಾರ"; "ವಲಯ"; "ವಲಯ:"; "ವಸ್ತು"; "ನಿಲ್"; "ಬೂಲಿಯನ್"; "ನಿಜ"; "ತಪ್ಪು"; "ಸಂಖ್ಯೆ"; "ಪಠ್ಯ"; "ಕಾರ್ಯ"; "ಪಟ್ಟಿ"; "ನಕ್ಷೆ"; "Stdout"; "ಫೈಲ್"; "ಕಾರ್ಯಕ್ರಮ"; "ಕ್ಷಣ"; "ಸೂಚನಾ"; "ಸ್ಥಳ"]);
  ("ko", ["새로운"; "같음 :"; "="; "≠"; "에 :할 :"; "응답:"; "응답 :및:"; "응답 :및 :및 :"; "응답 :및 :및 :및 :"; "유형"; "무?"; "자기"; "하다"; "끝난"; "아니요:"; "예:"; "메시지 :인수 :"; "텍스트로 변환"; "숫자로 변환"; "결정"; "이 경우:의무:"; "기억:의미:"; "적어"; "재귀"; "단절"; "계속하다"; "그밖에:"; "아니"; "과:"; "도 아니다:"; "또는:"; "또는:또는:"; "복사"; "+"; "더하다:"; "-"; "덜다:"; "×"; "곱하기 :"; "÷"; "로 나누다:"; ">"; "≥"; "<"; "≤"; "모듈로 :"; "낮은"; "높은"; "둥근"; "순수한"; "제곱근"; "지수화:"; "이상한?"; "조차?"; "양?"; "부정?"; "노골적인"; "의 사이에 :그리고:"; "자격 :"; "자격"; "sin"; "cos"; "tan"; "atan"; "log"; "길이"; "부터 :길이 :"; "주변 공간 제거"; "캐릭터:"; "찾기:"; "마지막:"; "바꾸다:의:"; "스플릿:"; "대문자"; "소문자"; "오프셋:"; "추가하십시오 :"; "국제 번호"; "해시시:"; "문자"; "포함한다 :"; "비교:"; "개체로"; "운영"; "적용하다:"; "적용하다:그리고:"; "적용 :및 :및 :"; "요소:값:"; "오류:"; "잡기:"; "순서"; "동안:"; "←"; "•"; ";"; "접두사 :"; "첫 번째 항목"; "카운트"; "붙다:"; "마지막 항목"; "위치:"; "에서:"; "?"; "종류:"; "협회:와:"; "~에서:길이:바꿔 놓음:"; "지도:"; "마다:"; "최저한의"; "최고"; "마지막"; "마지막 마지막"; "먼저"; "수:채우다:"; "으로:"; "출품작"; "가치"; "있다 :"; "쓰다:"; "중지"; "새로운:"; "통로"; "읽다"; "존재"; "크기"; "지우다"; "_명부:"; "논의:"; "인수"; "환경:"; "물어보기"; "설정 :값 :"; "클린 메모리"; "기억:"; "단정함 :"; "시스템 명령:"; "입력"; "플러시"; "기억"; "사용하다:"; "비밀번호"; "종료"; "기다림:"; "시각"; "일?"; "일:"; "달?"; "달:"; "년?"; "년:"; "시?"; "시:"; "분?"; "분:"; "둘째?"; "둘째:"; "주일?"; "올해의 날?"; "주?"; "존?"; "존:"; "목적"; "무효"; "예 혹은 아니오"; "예"; "아니요"; "번호"; "텍스트"; "암호"; "명부"; "지도"; "✎"; "파일"; "프로그램"; "순간"; "교수"; "일어난다"]);
  ("ku", ["nşh"; "wekhev:"; "="; "≠"; "on:do:"; "bersivdan:"; "bersiv:û:"; "bersiv:û:û:"; "bersiv:û:û:û:û:"; "awa"; "vala?"; "ez-bixwe"; "bikin"; "kir"; "na:"; "erê:"; "peyam:argûmentar:"; "nivîstok"; "jimare"; "erê/na"; "doza:do:"; "fêr-bibin:tê-vê-wateyê:"; "koda"; "xwe"; "şikesta"; "berdewamkirin"; "wekîdi:"; "ne"; "û:"; "ne-jî:"; "an:"; "an:an:"; "kopî"; "+"; "lêzêdekirin:"; "-"; "jêkêmkirin:"; "×"; "pirjimar:"; "÷"; "perçe-by:"; ">"; "≥"; "<"; "≤"; "modulo:"; "nizm"; "bilind"; "girrover"; "bêkêmasî"; "root-root"; "erk:"; "xerîb?"; "heta?"; "pozîtîf?"; "nebaş?"; "xavî"; "di-navbera:û:"; "têgihanîn:"; "zanyarî"; "sin"; "cos"; "tan"; "atan"; "log"; "dirêjî"; "ji:dirêjî:"; "valahiyên-derdorê-derxînin"; "şexsîyet:"; "dîtin:"; "dawîn:"; "şûna:bi:"; "qelişandin:"; "mezin"; "biçûk"; "berhevkirin:"; "paşgir:"; "hejmarek-navneteweyî"; "hash:"; "tîp"; "tê-de:"; "mûqayesekirin:"; "tişt"; "rev"; "sepandin:"; "sepandin:û:"; "sepandin:û:û:"; "set:nirx:"; "şaşî:"; "girtin:"; "doz"; "demek:"; "←"; "~"; ";"; "pêşkîte:"; "yekem-bigirin"; "jimartin"; "bihevgirêdan:"; "dawî-bigirin"; "rewş:"; "ba:"; "?"; "jiberhevxistin:"; "danîn:li:"; "şûna:dirêj:bi:"; "lîsteyek:"; "herkes:"; "kêmtirîn"; "zêdetir"; "dawîn"; "ya-paşîn-paşîn"; "yekem"; "dagirtin:bi:"; "ji:"; "têketin"; "nirxên"; "heye:"; "nivîsîn:"; "rawestan"; "nşh:"; "şop"; "xwendin"; "heye"; "mezinayî"; "jêbirin"; "rêzek:"; "bersivk:"; "argumana"; "mîheng:"; "pirsîn"; "mîheng:nirx:"; "bîra-bîranîn"; "bîr:"; "paqijbûnî:"; "fermana-pergalê:"; "beyan"; "flush"; "bîr"; "bikaranîn:"; "şîfreyê-bipirse"; "dawî"; "payin:"; "dem"; "roj"; "roj:"; "meh"; "meh:"; "sal"; "sal:"; "seet"; "seet:"; "deqqe"; "deqqe:"; "duyem"; "duyem:"; "rojevê"; "roja-salê"; "hefte"; "dor"; "dor:"; "Tişt"; "Vala"; "Erê/Na"; "Erê"; "Na"; "Jimare"; "Nivîstok"; "Kar"; "Rêzek"; "Lîsteyek"; "Stdout"; "Dosî"; "Bername"; "Evdem"; "Ders"; "Cîhê-pelê"]);
  ("ky", ["жаңы"; "барабар:"; "="; "≠"; "боюнча:эмне:"; "жооп:"; "жооп:жана:"; "жооп:и:и:"; "жооп:и:и:и:"; "түрү"; "боштук?"; "мен"; "эмне"; "аткарылган"; "жок:"; "oоба:"; "билдирүү:аргументтер:"; "cөз"; "сан"; "oоба-же-жок"; "иши:эмне:"; "үйрөнүү:каражаттары:"; "коду"; "рекурсивдүү"; "токтотуу"; "улантуу"; "дагы:"; "жок"; "жана:"; "да:"; "же:"; "да:же:"; "копия"; "+"; "кошуу:"; "-"; "кемитүү:"; "×"; "көбөйтүү:"; "÷"; "боюнча-бөлүп:"; ">"; "≥"; "<"; "≤"; "модулдук:"; "төмөн"; "бийик"; "тегерек"; "абсолюттук"; "квадраттык-тамыр"; "күчү:"; "так?"; "жуп?"; "оң?"; "терс?"; "чийки"; "ортосунда:жана:"; "талаптарга-жооп:"; "квалификация"; "sin"; "cos"; "tan"; "atan"; "log"; "узундук"; "чейин:узундугу:"; "курчап-боштуктарды-алып"; "тамга:"; "таап:"; "уланат:"; "менен:алмаштыруу:"; "бөлүү:"; "баш-тамга"; "кичинекей-тамга"; "ордун:"; "суффикс:"; "эл-аралык-саны"; "Хаш:"; "белги"; "камтыйт:"; "салыштыр:"; "Объект-катары"; "Нускасы"; "колдонулат:"; "колдонулат:жана:"; "колдонулат:жана:жана:"; "белгиленген:Наркы:"; "ката:"; "кармап:"; "процедура"; "aл-эми:"; "←"; "~"; ";"; "префикс:"; "биринчи-объектти-кармап"; "эсептөө"; "кошулууга:"; "акыркы-объектти-алуу"; "орду:"; "боюнча:"; "?"; "сорттоо:"; "койду:эле:"; "алмаштыруу:узундугу:менен:"; "карта:"; "ар-бири:"; "минимум"; "эң-жогорку"; "акыркы"; "экинчи-жолу"; "алгачкы"; "толтургула:менен:"; "менен:"; "жазуулар"; "баалуулуктар"; "бар:"; "жаз:"; "кийинки"; "жаңы:"; "жол"; "окуу"; "бар"; "көлөм"; "жок-кылуу"; "тизмеси:"; "аргумент:"; "аргументтер"; "жөндөө:"; "суроо"; "аныктоо:Наркы:"; "таза-эс"; "эс-тутум:"; "Тыкан:"; "tутум-буйругу:"; "кирүү"; "агызма"; "эс-тутум"; "колдонуу:"; "сырсөз-сура"; "Бир-мезгилдин-акырына-карата"; "күтүү:"; "убакыт"; "күн"; "күн:"; "ай"; "ай:"; "жыл"; "жылы:"; "саат"; "саат:"; "мүнөт"; "Мүнөт:"; "экинчи"; "экинчи:"; "шаарчада"; "жылдын-күнү"; "жума"; "зона"; "зонасы:"; "зат"; "Боштук"; "Oоба-же-жок"; "Oоба"; "Жок"; "Cан"; "Сөз"; "Tапшырма"; "тизме"; "карта"; "Stdout"; "Файл"; "программа"; "ирмем"; "Нускама"; "жер"]);
  ("lb", ["nei"; "gleichgestallt:"; "="; "≠"; "sou:maachen:"; "äntweren:"; "äntweren:an:"; "äntweren:an:an:"; "äntweren:an:an:an:"; "typ"; "eidel?"; "selwer"; "maachen"; "gemaach"; "falsch:"; "wouer:"; "noriicht:argumenter:"; "text"; "zuel"; "boolschen"; "fall:maachen:"; "léieren:heescht:"; "code"; "rekursiv"; "briechen"; "weiderfueren"; "anescht:"; "net"; "an:"; "an-net:"; "oder:"; "entweder:oder:"; "kopéieren"; "+"; "füügen:"; "-"; "ofzéien:"; "×"; "multiplizéieren-mat:"; "÷"; "deelen-duerch:"; ">"; "≥"; "<"; "≤"; "modulo:"; "abgerundet"; "aufgerundet"; "gerundet"; "absolut"; "quadratrot"; "kraaft:"; "ungerade?"; "riicht?"; "positiv?"; "negativ?"; "réi"; "tëscht:an:"; "qualifizéieren:"; "qualifizéieren"; "sin"; "cos"; "tan"; "atan"; "log"; "längt"; "vun:längt:"; "ewechzehuelen-Ëmfeld"; "charakter:"; "fannen:"; "läscht:"; "ersetzen:mat:"; "verdeelt:"; "grousse-buschstaw"; "kleng-schrëft"; "kompenséiert:"; "dobäizemaachen:"; "international-zuel"; "hash:"; "zeechen"; "enthält:"; "vergläichen:"; "objet"; "lafen"; "uwenden:"; "uwenden:an:"; "uwenden:an:an:"; "setzt:wäert:"; "feeler:"; "Fehlerbehandlung:"; "prozedur"; "während:"; "←"; "~"; ";"; "ofhängeg:"; "huelen-Se-d-'-éischt"; "zielen"; "maach-mat:"; "giff-de-leschte"; "positioun:"; "bei:"; "?"; "zortéieren:"; "setzen:bei:"; "ersetzen:längt:mat:"; "lëscht:"; "jiddereen:"; "minimum"; "maximal"; "lescht"; "zweet-lescht"; "éischten"; "fëllt:mat:"; "vun:"; "entréen"; "wäerter"; "huet:"; "schreiwen:"; "stoppen"; "nei:"; "wee"; "liesen"; "existéiert"; "gréisst"; "läschen"; "serie:"; "argument:"; "argumenter"; "astellung:"; "froen"; "astellung:wäert:"; "propper-erënnerung"; "gedächtnis:"; "gerechtegkeet:"; "Systembefehl:"; "input"; "fléissend"; "gedächtnis"; "benotzen:"; "froen-Passwuert"; "enn"; "waart:"; "zäit"; "dag"; "dag:"; "mount"; "mount:"; "joer"; "joer:"; "stonn"; "stonn:"; "minutt"; "minutt:"; "zweeten"; "zweeten:"; "wochendag"; "dag-vum-joer"; "woch"; "zone"; "zone:"; "Objet"; "Eidel"; "Boolschen"; "Richteg"; "Falsch"; "Zuel"; "Text"; "Aufgab"; "Serie"; "Lëscht"; "Stdout"; "Datei"; "Programm"; "Moment"; "Instruktioun"; "Datei-Location"]);
  ("lo", ["ໃຫມ່"; "ເທົ່າກັບ:"; "="; "≠"; "ສຸດ:ເຮັດ:"; "ຕອບ:"; "ຕອບ:ແລະ:"; "ຕອບ:ແລະ:ແລະ:"; "ຕອບ:ແລະ:ແລະ:ແລະ:"; "ປະເພດ"; "ບໍ່ມີຫຍັງ?"; "ຕົວຂ້ອຍເອງ"; "ເຮັດ"; "ສຳ-ເລັດແລ້ວ"; "ບໍ່:"; "ໂອເຄ:"; "ຂໍ້ຄວາມ:ການໂຕ້ຖຽງ:"; "ລາຍລະອຽດ"; "ຈໍານວນ"; "ປຸ້ຍ"; "ກໍລະນີ:ເຮັດ:"; "ຮຽນຮູ້:ໝາຍ-ຄວາມວ່າ:"; "ລະຫັດ"; "ຮຽກຮ້ອງ"; "ແຕກແຍກ"; "ສືບຕໍ່"; "ອື່ນ:"; "ປີ້ນ​ລົງ"; "ແລະ:"; "ແລະບໍ່ແມ່ນ:"; "ຫຼື:"; "ທັງ:ຫຼື:"; "ສຳ-ເນົາ"; "+"; "ເພີ່ມ:"; "-"; "ການຫັກລົບ:"; "×"; "ຄູນດ້ວຍ:"; "÷"; "ແບ່ງໂດຍ:"; ">"; "≥"; "<"; "≤"; "modulo:"; "ຕໍ່າ"; "ສູງ"; "ຮອບ"; "ຢ່າງແທ້ຈິງ"; "ຮາກ​ຂັ້ນ​ສອງ"; "ພະລັງງານ:"; "ເລກຄີກ?"; "ເລກ​ຄູ່?"; "ໃນທາງບວກ?"; "ກະທົບທາງລົບ?"; "ດິບ"; "ລະຫວ່າງ:ແລະ:"; "ມີເງື່ອນໄຂ:"; "ຄຸນວຸດທິ"; "sin"; "cos"; "tan"; "atan"; "log"; "ຄວາມຍາວ"; "ຈາກ:ຄວາມຍາວ:"; "ເອົາສະຖານທີ່ອ້ອມຮອບ"; "ລັກສະນະ:"; "ຊອກຫາ:"; "ສຸດທ້າຍ:"; "ທົດແທນ:ດ້ວຍ:"; "ແບ່ງປັນ:"; "ອັກສອນໃຫຍ່"; "ໂຕນ້ອຍ"; "ຊົດເຊີຍ:"; "ທີ່ສຸດ:"; "ເລກສາກົນ"; "hash:"; "ຕົວລະຄອນ"; "ບັນຈຸ:"; "ປຽບທຽບ:"; "ປ່ຽນເປັນວັດຖຸ"; "ແລ່ນ"; "ສະ-ໝັກ:"; "ສະ-ໝັກ:ແລະ:"; "ສະ-ໝັກ:ແລະ:ແລະ:"; "ຕັ້ງຄ່າ:__:"; "ຂໍ້ຜິດພາດ:"; "ຈັບ:"; "ຂັ້ນຕອນ"; "ໃນຂະນະທີ່:"; "←"; "~"; ";"; "ຄຳນຳໜ້າ:"; "ເອົາຄັ້ງທໍາອິດ"; "ນັບ"; "ເຂົ້າຮ່ວມ:"; "ເອົາສຸດທ້າຍ"; "ຕຳ-ແໜ່ງ:"; "ທີ່:"; "?"; "ຄັດ:"; "ໃສ່:ທີ່:"; "ທົດແທນ:ຄວາມຍາວ:ກັບ:"; "ລາຍຊື່:"; "ແຕ່ລະ:"; "ຕໍາ່ສຸດທີ່"; "ສູງສຸດ"; "ສຸດທ້າຍ"; "ຄັ້ງທີສອງສຸດທ້າຍ"; "ກ່ອນ"; "ການຕື່ມ:ວັດຖຸ:"; "ໂດຍ:"; "ການອອກສຽງ"; "ຄຸນຄ່າ"; "ມີ:"; "ຂຽນ:"; "ຢຸດ"; "_ໃຫມ່:"; "ເສັ້ນທາງ"; "ອ່ານ"; "ມີຢູ່ແລ້ວ"; "ຂະ-ໜາດ"; "ລົບ"; "ຊຸດ:"; "ການໂຕ້ຖຽງ:"; "ການໂຕ້ຖຽງ"; "ການຕັ້ງຄ່າ:"; "ຖາມ"; "ຕັ້ງຄ່າ:ຄ່າ__:"; "ຄວາມຊົງ-ຈຳ-ທີ່ສະອາດ"; "ຄວາມຊົງ-ຈຳ:"; "ກະທັດຮັດ:"; "ຄໍາສັ່ງລະບົບ:"; "ວັດສະດຸປ້ອນ"; "ໄຫຼອອກ"; "ຄວາມຊົງ-ຈຳ"; "ໃຊ້:"; "ຖາມລະຫັດຜ່ານ"; "ສິ້ນສຸດ"; "ລໍຖ້າ:"; "ທີ່ໃຊ້ເວລາ"; "ມື້"; "ມື້:"; "ເດືອນ"; "ເດືອນ:"; "ປີ"; "ປີ:"; "ຊົ່ວໂມງ"; "_ຊົ່ວໂມງ:"; "ນາທີ"; "ນາທີ:"; "ຄັ້ງທີສອງ"; "ຄັ້ງທີສອງ:"; "ວັນອາທິດ"; "ມື້ຂອງປີ"; "ອາທິດ"; "ເຂດ"; "ເຂດ:"; "ຈຸດປະສົງ"; "ບໍ່ມີຫຍັງ"; "ແມ່ນຫຼືບໍ່"; "ໂອເຄ"; "ບໍ່"; "ເລກ"; "ຂໍ້ຄວາມ"; "ເຮັດວຽກ"; "ຊຸດ"; "ລາຍຊື່"; "Stdout"; "ແຟ້ມ"; "ແຜນງານ"; "ປັດຈຸບັນ"; "ຄຳ-ແນະ-ນຳ"; "ສະຖານທີ່ໄຟລ໌"]);
  ("lt", ["naujas"; "lygu:"; "="; "≠"; "ant:daryti:"; "atsakyti:"; "atsakyti:ir:"; "atsakyti:ir:ir:"; "atsakyti:ir:ir:ir:"; "tipas"; "Nulis?"; "save"; "daryti"; "atlikta"; "netiesa:"; "tiesa:"; "žinutė:reikšmės:"; "simbolių-eilutė"; "skaičius"; "į-loginį"; "atvejis:daryti:"; "išmokti:būdai:"; "code"; "rekursinis"; "stabdyti"; "tęsti"; "kitu-atveju:"; "ne"; "ir:"; "disjunkcijos-neigimas:"; "arba:"; "arba:arba:"; "kopijuoti"; "+"; "sudėti:"; "-"; "atimti:"; "×"; "padauginti-iš:"; "÷"; "padalinti-iš:"; ">"; "≥"; "<"; "≤"; "dalyba-mod:"; "grindys"; "lubos"; "apvalinti"; "modulis"; "kvadratinė-šaknis"; "kelti-laipsniu:"; "nelyginis?"; "lyginis?"; "teigiamas?"; "neigiamas?"; "šiurkštus"; "tarp:ir:"; "tinka:"; "kvalifikacija"; "sin"; "cos"; "tan"; "atan"; "log"; "ilgis"; "nuo:ilgis:"; "pašalinti-tarpus-aplink"; "simbolis:"; "rasti:"; "paskutinis:"; "pakeisti:_į:"; "padalinti:"; "didžiosios-raidės"; "mažosios-raidės"; "ofsetas:"; "pridėti:"; "tarptautinis-numeris"; "maišyti:"; "simboliai"; "turi-savyje:"; "palyginti:"; "objektas"; "paleisti"; "taikyti:"; "taikyti:ir:"; "pritaikyti:ir:ir:"; "nustatyti:reikšmė:"; "klaida:"; "pagauti:"; "procedūra"; "kol:"; "←"; "~"; ";"; "pridėti-pradžioje:"; "perstumti"; "skaičiuoti"; "sujungti:"; "išimti"; "padėtis:"; "_į:"; "?"; "rūšiuoti:"; "įdėti:_į:"; "pakeisti:ilgis:su:"; "map:"; "kiekvienas:"; "minimumas"; "maksimumas"; "paskutinis"; "priešpaskutinis"; "pirmas"; "užpildyti:su:"; "pagal:"; "įvestys"; "turinys"; "turi:"; "atspausdinti:"; "sustoti"; "naujas:"; "takas"; "skaityti"; "egzistuoja"; "dydis"; "ištrinti"; "sąrašas:"; "reikšmė:"; "reikšmės"; "nustatymas:"; "klausti"; "nustatymas:vertė:"; "išvalyti-atmintį"; "atminties-limitas:"; "tvarka:"; "shell:"; "įvestis"; "nuleisti"; "atmintis"; "naudoti:"; "paklausk-slaptažodžio"; "baigti"; "laukti:"; "laikas"; "diena"; "diena:"; "mėnesis"; "mėnesis:"; "metai"; "metai:"; "valanda"; "valanda:"; "minutė"; "minutė:"; "sekundė"; "sekundė:"; "savaitės-diena"; "metų-diena"; "savaitė"; "zona"; "zona:"; "Objektas"; "Nulis"; "Loginis"; "Tiesa"; "Netiesa"; "Skaičius"; "Tekstą"; "Kodas"; "Sąrašas"; "Map"; "Stdout"; "Failas"; "Programa"; "Momentas"; "Instrukcija"; "Vieta"]);
  ("lv", ["jauns"; "vienāds-ar:"; "="; "≠"; "ieslēgts:darīt:"; "atbildēt:"; "atbildēt:un:"; "atbildēt:un:un:"; "atbildēt:un:un:un:"; "tips"; "nulle?"; "es-pats"; "darīt"; "darīts"; "nepatiess:"; "taisnība:"; "ziņa:argumenti:"; "teksts"; "numuru"; "būla"; "gadījums:darīt:"; "mācīties:nozīmē:"; "kods"; "rekursīvs"; "pārtraukums"; "turpināt"; "cits:"; "nē"; "un:"; "ne:"; "vai:"; "vai-nu:vai:"; "kopija"; "+"; "pievienot:"; "-"; "atņemt:"; "×"; "reizināt-ar:"; "÷"; "dalīt-ar:"; ">"; "≥"; "<"; "≤"; "modulo:"; "zems"; "augsts"; "raunds"; "absolūts"; "kvadrātsakne"; "jauda:"; "nepāra?"; "pat?"; "pozitīvs?"; "negatīvs?"; "neapstrādāts"; "starp:un:"; "kvalificēties:"; "kvalifikācija"; "sin"; "cos"; "tan"; "atan"; "log"; "garums"; "no:garums:"; "noņemiet-apkārtējās-telpas"; "raksturs:"; "atrast:"; "pēdējais:"; "aizvietot:ar:"; "sadalīt:"; "lielie-burti"; "mazie-burti"; "nobīde:"; "sufikss:"; "starptautiskais-numurs"; "hash:"; "rakstzīmes"; "satur:"; "salīdzināt:"; "objekts"; "skriet"; "pieteikties:"; "pieteikties:un:"; "piemēro:un:un:"; "komplekts:vērtība:"; "kļūda:"; "noķert:"; "procedūra"; "kamēr:"; "←"; "~"; ";"; "prefikss:"; "veikt-prefikss"; "skaita"; "pievienoties:"; "veikt-sufikss"; "amats:"; "pie:"; "?"; "kārtot:"; "ievietot:pie:"; "aizstāt:garums:ar:"; "karte:"; "katrs:"; "minimums"; "maksimums"; "pēdējais"; "otrais-pēdējais"; "vispirms"; "piepildīt:ar:"; "autors:"; "ieraksti"; "vērtības"; "ir:"; "rakstīt:"; "apstāties"; "jauns:"; "ceļš"; "lasīt"; "pastāv"; "izmērs"; "dzēst"; "saraksts:"; "arguments:"; "argumenti"; "iestatījums:"; "pajautā"; "iestatījums:vērtība:"; "tīra-atmiņa"; "atmiņa:"; "sakoptība:"; "sistēmas-komanda:"; "ievadi"; "flush"; "atmiņa"; "izmantot:"; "jautājiet-paroli"; "beigas"; "pagaidiet:"; "laiks"; "dienā"; "diena:"; "mēnesī"; "mēnesis:"; "gadā"; "gads:"; "stunda"; "stunda:"; "minūte"; "minūte:"; "otrais"; "otrais:"; "darba-diena"; "gada-diena"; "nedēļā"; "zona"; "zona:"; "Objekts"; "Nulle"; "Būla"; "Patiesībā"; "Viltus"; "Skaits"; "Teksts"; "Uzdevums"; "Saraksts"; "Karte"; "Stdout"; "Fails"; "Programma"; "Brīdi"; "Instrukcija"; "Vieta"]);
  ("mg", ["vaovao"; "mitovy:"; "="; "≠"; "on:ataovy:"; "mamaly:"; "mamaly:ary:"; "mamaly:ary:ary:"; "mamaly:ary:ary:ary:"; "karazana"; "nil?"; "ny-tenako"; "manao"; "vita"; "diso:"; "marina:"; "hafatra:kevitra:"; "tady"; "isa"; "boolean"; "raharaha:ataovy:"; "mianatra:dia-midika-hoe:"; "code"; "recursive"; "break"; "hanohy"; "hafa:"; "tsy"; "ary:"; "ary-tsy-koa:"; "na:"; "na:na:"; "dika-mitovy"; "+"; "ampiana-hoe:"; "-"; "analana:"; "×"; "hihamaro-by:"; "÷"; "zarao-by:"; ">"; "≥"; "<"; "≤"; "modulo:"; "tany"; "ceil"; "manodidina"; "tanteraka"; "toradroa-faka"; "hery:"; "hafahafa?"; "mihitsy-aza?"; "tsara?"; "ratsy?"; "manta"; "eo:ary:"; "mahafeno-fepetra:"; "fahaizana"; "sin"; "cos"; "tan"; "atan"; "log"; "halavan']ny"; "from:lavany:"; "esory-toerana-manodidina"; "toetra:"; "mahita:"; "haharitra:"; "hanoloana:amin']ny:"; "saraho:"; "litera-kapitaly"; "lowercase"; "offset:"; "suffix:"; "isa-iraisam-pirenena"; "hash:"; "tarehin-tsoratra"; "misy:"; "mampitaha:"; "zavatra"; "run"; "mampihatra:"; "mampihatra:ary:"; "mampihatra:ary:ary:"; "hametraka:zava-dehibe:"; "fahadisoana:"; "misambotra:"; "fitsarana"; "raha:"; "←"; "~"; ";"; "prefix:"; "fiovàna"; "manisa"; "anjara:"; "tsapako"; "toerana:"; "amin']ny:"; "?"; "sort:"; "hametraka:amin']ny:"; "hanoloana:lavany:amin']ny:"; "sarintany:"; "tsirairay:"; "kely-indrindra"; "faratampony"; "farany"; "faharoa-farany"; "voalohany"; "fenoy:amin']ny:"; "by:"; "anglisy"; "soatoavina"; "manana:"; "manoratra:"; "mijanòna"; "vaovao:"; "lalana"; "vakio-ny"; "misy"; "habe"; "hamafa"; "list:"; "tohan-kevitra:"; "kevitra"; "zava-dehibe:"; "manontany"; "zava-dehibe:mametraka:"; "madio-fahatsiarovana"; "fahatsiarovana:"; "tidiness:"; "rafitra:"; "fahan']ny"; "maoderina"; "fahatsiarovana"; "mampiasa:"; "manontany-tenimiafina"; "tapitra"; "miandry:"; "fotoana"; "andro"; "andro:"; "volana"; "volana:"; "taona"; "taona:"; "ora"; "ora:"; "minitra"; "minitra:"; "faharoa"; "faharoa:"; "weekday"; "andro-ny-taona"; "herinandro"; "ara-potoana"; "ara-potoana:"; "Zavatra"; "Nil"; "Boolean"; "Marina"; "Diso"; "Number"; "String"; "Code"; "List"; "Map"; "Stdout"; "File"; "Program"; "Fotoana"; "Instruction"; "Toerana-misy-ny-rakitra"]);
  ("mi", ["hou"; "taurite:"; "="; "≠"; "runga:mahi:"; "whakautu:"; "whakautu:a:"; "whakautu:a:a:"; "whakautu:a:a:a:"; "momo"; "putua?"; "ahau-iho"; "mahia"; "kua-mahia"; "kahore:"; "ae:"; "panui:tautohetohe:"; "kuputuhi"; "tau"; "whakatau"; "take:do:"; "ako:te-tikanga:"; "waehere"; "recursive"; "waatea"; "haere-tonu"; "atu:"; "kahore"; "a:"; "kaore-hoki:"; "ranei:"; "ranei:ranei:"; "tārua"; "+"; "tāpiri:"; "-"; "tangohia:"; "×"; "whakanuia-e:"; "÷"; "wehea-ma:"; ">"; "≥"; "<"; "≤"; "modulo:"; "iti"; "teitei"; "porotaka"; "tino"; "pakiaka-tapawha"; "mana:"; "kerekere?"; "taurite?"; "whaihua?"; "kino?"; "mata"; "i-waenga-i:me:"; "tohu:"; "tohu"; "sin"; "cos"; "tan"; "atan"; "log"; "roa"; "mai:roa:"; "tango-i-nga-waahi-taangata"; "huru:"; "kitea:"; "whakamutunga:"; "whakakapihia:me:"; "wehewehe:"; "papaka"; "pūrūrū"; "tīmatanga:"; "taapiri:"; "tau-o-te-ao"; "raka:"; "pūāhua"; "kei-roto:"; "whakataurite:"; "ahanoa"; "oma"; "tono:"; "tono:a:"; "whaia:a:a:"; "tautuhi:uara:"; "hapa:"; "hopu:"; "tikanga"; "i-te-wa:"; "←"; "~"; ";"; "whakarite:"; "hopu-i-te-tuatahi"; "tatau"; "uru-atu:"; "tiki-i-te-mea-whakamutunga"; "tūnga:"; "i:"; "?"; "kōmaka:"; "ahanoa:wahi:"; "whakakapihia:te-roa:me:"; "rarangi:"; "ia:"; "iti-rawa"; "mōrahi"; "whakamutunga"; "tuarua-tuara"; "tuatahi"; "whakakī:me:"; "na:"; "kupumatua"; "uara"; "kua:"; "tuhi:"; "kati"; "hou:"; "huarahi"; "pānui"; "te-vai-nei"; "rahinga"; "muku"; "raupapa:"; "tautohetohe:"; "tautohetohe"; "tautuhinga:"; "pātai"; "tautuhinga:uara:"; "pūmahara-mā"; "mahara:"; "mania:"; "whakahau-pūnaha:"; "urunga"; "flush"; "mahara"; "whakamahi:"; "pātai-kupu-huna"; "mutu"; "tatari:"; "wā"; "rā"; "rā:"; "marama"; "marama:"; "tau-maramataka"; "tau-maramataka:"; "haora"; "haora:"; "meneti"; "meneti:"; "tuarua"; "tuarua:"; "rā-wiki"; "tuhinga-o-mua"; "wiki"; "rohe"; "rohe:"; "Ahanoa"; "Kau"; "Ae/Kahore"; "Ae"; "Kahore"; "Tau"; "Kuputuhi"; "Mahi"; "Raupapa"; "Rarangi"; "Stdout"; "Kōnae"; "Te-Kaupapa"; "Momen"; "Tohutohu"; "Tauwāhi-o-te-konae"]);
  ("mk", ["ново"; "еднакви:"; "="; "≠"; "на:направи:"; "одговори:"; "одговори:и:"; "одговори:и:и:"; "одговори:и:и:и:"; "тип"; "Нула?"; "јас"; "направи"; "направено"; "лажни:"; "точно:"; "порака:аргументи:"; "текст"; "број"; "буле"; "случај:направи:"; "научи:значи:"; "код"; "рекурзивен"; "пауза"; "продолжи"; "друго:"; "не"; "и:"; "ниту:"; "или:"; "или:или:"; "копија"; "+"; "додадете:"; "-"; "одземе:"; "×"; "помножи-со:"; "÷"; "подели-по:"; ">"; "≥"; "<"; "≤"; "модул:"; "подот"; "таванот"; "круг"; "апсолутно"; "квадратен-корен"; "моќ:"; "чудно?"; "дури?"; "позитивно?"; "негативно?"; "суровини"; "помеѓу:и:"; "квалификува:"; "Квалификација"; "sin"; "cos"; "tan"; "atan"; "log"; "должина"; "од:должина:"; "отстранете-ги-околните-простори"; "карактер:"; "најдете:"; "последно:"; "замени:со:"; "подели:"; "големи-букви"; "мали-букви"; "неутрализирање:"; "додаток:"; "меѓународен-број"; "хаш:"; "карактери"; "содржи:"; "споредете:"; "претвори-во-предмет"; "работи"; "применуваат:"; "применуваат:и:"; "применуваат:и:и:"; "поставено:вредност:"; "грешка:"; "фати:"; "постапка"; "додека:"; "←"; "~"; ";"; "преполни:"; "смена"; "брои"; "придружи-се:"; "поп"; "позиција:"; "на:"; "?"; "вид:"; "стави:на:"; "замени:должина:со:"; "мапа:"; "секој:"; "минимум"; "максимум"; "последен"; "втор-последен"; "прво"; "пополнете:со:"; "од:"; "записи"; "вредности"; "има:"; "напиши:"; "запре"; "нови:"; "патека"; "читај"; "постои"; "големина"; "избриши"; "список:"; "аргумент:"; "аргументи"; "поставување:"; "прашај"; "поставување:вредност:"; "чиста-меморија"; "меморија:"; "уредност:"; "компјутер:"; "влез"; "испушти"; "меморија"; "користете:"; "прашај-лозинка"; "крај"; "почекај:"; "време"; "ден"; "ден:"; "месец"; "месец:"; "година"; "година:"; "час"; "час:"; "минута"; "минута:"; "второ"; "второ:"; "ден-од-неделата"; "ден-во-годината"; "недела"; "зона"; "зона:"; "Објект"; "Нула"; "Булеан"; "Вистина"; "Лажни"; "Број"; "Текст"; "Код"; "Листа"; "Карта"; "Stdout"; "Датотека"; "Програма"; "Момент"; "Упатство"; "локација-на-датотека"]);
  ("ml", ["പുതിയത്"; "സമം:"; "="; "≠"; "ഓൺ:ചെയ്യുക:"; "പ്രതികരിക്കുക:"; "പ്രതികരിക്കുക:കൂടാതെ:"; "പ്രതികരിക്കുക:കൂടാതെ:ഒപ്പം:"; "പ്രതികരിക്കുക:കൂടാതെ:ഒപ്പം:ഒപ്പം:"; "ടൈപ്പ്-ചെയ്യുക"; "ഇല്ലേ?"; "ഞാൻ-തന്നെ"; "ചെയ്യുക"; "ചെയ്‌തു"; "തെറ്റായ:"; "ശരിയാണ്:"; "സന്ദേശം:ആർ‌ഗ്യുമെൻറുകൾ‌:"; "_സ്ട്രിംഗ്"; "_നമ്പർ"; "തീരുമാനിക്കുക"; "കേസ്:ചെയ്യുക:"; "പഠിക്കുക:അർത്ഥമാക്കുന്നത്:"; "എഴുതിയ-കോഡ്"; "ആവർത്തന"; "പൊട്ടിക്കുക"; "തുടരുക"; "അല്ലെങ്കിൽ:"; "ടേൺ-എറൗണ്ട്"; "ഒപ്പം:"; "രണ്ടും-അല്ല:"; "അഥവാ:"; "ഒന്നുകിൽ:അല്ലെങ്കിൽ:"; "പകർത്തുക"; "+"; "ചേർക്കുക:"; "-"; "കുറയ്ക്കുക:"; "×"; "ഇതിനാൽ-ഗുണിക്കുക:"; "÷"; "ഇതിനാൽ-വിഭജിക്കുക:"; ">"; "≥"; "<"; "≤"; "മൊഡ്യൂളോ:"; "തറ"; "പരിധി"; "റ-ണ്ട്"; "കേവല"; "ചതുരശ്ര-റൂട്ട്"; "ശക്തി:"; "വിചിത്രമാണോ?"; "പോലും?"; "പോസിറ്റീവ്?"; "നെഗറ്റീവ്?"; "അസംസ്കൃത"; "ഇടയിൽ:ഒപ്പം:"; "യോഗ്യത:"; "യോഗ്യത"; "sin"; "cos"; "tan"; "atan"; "log"; "നീളം"; "നിന്ന്:നീളം:"; "ചുറ്റുമുള്ള-ഇടങ്ങൾ-നീക്കംചെയ്യുക"; "പ്രതീകം:"; "കണ്ടെത്തുക:"; "അവസാനത്തെ:"; "മാറ്റിസ്ഥാപിക്കുക:ഉപയോഗിച്ച്:"; "രണ്ടായി-പിരിയുക:"; "വലിയക്ഷരം"; "ചെറിയക്ഷരം"; "ഓഫ്സെറ്റ്:"; "പ്രത്യയം:"; "അന്താരാഷ്ട്ര-നമ്പർ"; "ഹാഷ്:"; "പ്രതീകങ്ങൾ"; "ഉൾക്കൊള്ളുന്നു:"; "താരതമ്യം-ചെയ്യുക:"; "ഒരു-വസ്തുവായി"; "പ്രവർത്തിപ്പിക്കുക"; "പ്രയോഗിക്കുക:"; "പ്രയോഗിക്കുക:കൂടാതെ:"; "പ്രയോഗിക്കുക:കൂടാതെ:ഒപ്പം:"; "സജ്ജമാക്കുക:മൂല്യം:"; "പിശക്:"; "മീൻപിടിത്തം:"; "നടപടിക്രമം"; "അതേസമയം:"; "←"; "~"; ";"; "പ്രിഫിക്സ്:"; "ഷിഫ്റ്റ്"; "എണ്ണം"; "ചേരുക:"; "പോപ്പ്"; "സ്ഥാനം:"; "ഇവിടെ:"; "?"; "അടുക്കുക:"; "വസ്തു:സ്ഥാനം:"; "മാറ്റിസ്ഥാപിക്കുക:നീളം:ഉപയോഗിച്ച്:"; "മാപ്പിംഗ്:"; "ഓരോന്നും:"; "കുറഞ്ഞത്"; "പരമാവധി"; "അവസാനത്തെ"; "രണ്ടാമത്തേത്-അവസാനമായി"; "ആദ്യം"; "നിറക്കുക:__:"; "എഴുതിയത്:"; "എൻ‌ട്രികൾ‌"; "മൂല്യങ്ങൾ"; "ഉണ്ട്:"; "എഴുതുക:"; "നിർത്തുക"; "_പുതിയത്:"; "പാത"; "വായിക്കുക"; "നിലവിലുണ്ട്"; "വലുപ്പം"; "ഇല്ലാതാക്കുക"; "ലൈനിംഗ്-അപ്പ്:"; "വാദം:"; "ആർഗ്യുമെന്റുകൾ"; "ക്രമീകരണം:"; "ചോദിക്കുക"; "ക്രമീകരണം:മൂല്യം:"; "ക്ലീൻ-മെമ്മറി"; "മെമ്മറി:"; "വൃത്തി:"; "യന്ത്രം:"; "ഇൻപുട്ട്"; "ഫ്ലഷ്"; "മെമ്മറി"; "ഉപയോഗം:"; "രഹസ്യം"; "അവസാനിക്കുന്നു"; "കാത്തിരിക്കുക:"; "സമയം"; "ദിവസം"; "ദിവസം:"; "മാസം"; "മാസം:"; "വർഷം"; "വർഷം:"; "മണിക്കൂർ"; "_മണിക്കൂർ:"; "മിനിറ്റ്"; "മിനിറ്റ്:"; "രണ്ടാമത്തേത്"; "രണ്ടാമത്:"; "പ്രവൃത്തിദിനം"; "വർഷത്തിലെ-ദിവസം"; "ആഴ്ച"; "സോൺ"; "മേഖല:"; "വസ്തു"; "ഇല്ല"; "ബൂളിയൻ"; "ശരിയാണ്"; "തെറ്റായ"; "നമ്പർ"; "സ്ട്രിംഗ്"; "കോഡ്"; "പട്ടിക"; "മാപ്പ്"; "Stdout"; "ഫയൽ"; "പ്രോഗ്രാം"; "നിമിഷം"; "നിർദ്ദേശം"; "ഫയൽ-സ്ഥാനം"])].
