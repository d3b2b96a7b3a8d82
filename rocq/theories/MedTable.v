(** The objects of the media plugin, their messages and the C functions behind them, as registered by
    [begin] (plugins/media/media.c 4429-4587), and its words in every language (plugins/media/i18n/*/media.h).
    The parts under [#ifdef FFI] and [#ifdef LIBCURL] are in, those under [#ifdef WIN] are not. *)
From Coq Require Import List String.
From Verif Require Import RegTable.
Import ListNotations.
Local Open Scope string_scope.

(** The variables of the plugin that hold its objects (media.c 4429-4587). *)
Inductive mobj := MBlob | MColor | MPoint | MLine | MMedia | MImage | MFont | MAudio | MSound | MMusic | MNetwork | MPackage | MForeign.
(** A name in the source: one of the main program (RegTable.v) or a word of the plugin (CTR_DICT_...). *)
Inductive mkey := Core (k : key) | Plug (macro : string).

(** The words of the plugin (CTR_DICT_ followed by this), in the order of the headers. *)
Definition mmacros : list string := [
  "MEDIA_PLUGIN_ID"; "NETWORK_OBJECT"; "COLOR_OBJECT"; "POINT_OBJECT"; "LINE_OBJECT"; "IMAGE_OBJECT";
  "FONT_OBJECT"; "AUDIO_OBJECT"; "SOUND_OBJECT"; "MUSIC_OBJECT"; "PACKAGE_OBJECT"; "BLOB_OBJECT";
  "SCREEN"; "CLIPBOARD"; "ON_STEP"; "ON_KEY_UP"; "ON_KEY_DOWN"; "ON_TIMER";
  "ON_GAMEPAD_DOWN"; "ON_GAMEPAD_UP"; "TIMER_SET"; "LINK_SET"; "SELECTION"; "SEND_TEXT_MESSAGE";
  "RED"; "GREEN"; "BLUE"; "TRANSPARENCY"; "SOURCE_SET"; "CONTROLLABLE";
  "SOLID_SET"; "ACTIVE_SET"; "GRAVITY_SET"; "SPEED_SET"; "FRICTION_SET"; "COLLISION_SET";
  "ON_CLICK"; "REEL_SET"; "REEL_AUTOPLAY_SET"; "CUT"; "EDITABLE_SET"; "FONT_SET";
  "LINEHEIGHT_SET"; "COLOR_SET"; "BACKGROUND_COLOR_SET"; "DRAW_COLOR_SET"; "FROM"; "TO";
  "ACCELERATE_SET"; "JUMPHEIGHT_SET"; "BOUNCE_SET"; "GHOST_SET"; "STATIC"; "NODIRANI_SET";
  "STOP_AT_SET"; "AUDIO_PLAY"; "AUDIO_SILENCE"; "AUDIO_REWIND"; "XY_SET"; "VISIBLE_SET";
  "WIDTH_HEIGHT_SET"; "ALIGN_XY_SET"; "MOVE_TO_XY_SET"; "ON_CLICK_XY"; "X"; "Y";
  "SOURCE_SIZE_SET"; "FONTSCRIPT_TXTDIR_SET"; "DIALOG_SET"; "CLIPBOARD_SET"; "FROM_TO_SET"; "RED_GREEN_BLUE_SET";
  "TRANSPARENCY_SET"; "BYTES_SET"; "FREE"; "FREE_STRUCT"; "STRUCT_SET"; "DEREF";
  "UTF8_SET"; "NEW_TYPE_SET"; "FX"; "FREEZE_SET"; "MASK_SET"].

(** The calls of [ctr_internal_create_func] (media.c 4439-4571), in order. *)
Definition mregistrations : list (mobj * mkey * string) := [
  (MBlob, Core (Dict "NEW_SET"), "ctr_blob_new_set");
  (MBlob, Core (Dict "TOSTRING"), "ctr_blob_tostring");
  (MBlob, Plug "BYTES_SET", "ctr_blob_fill");
  (MBlob, Plug "UTF8_SET", "ctr_blob_utf8_set");
  (MBlob, Plug "NEW_TYPE_SET", "ctr_blob_new_set_type");
  (MBlob, Plug "DEREF", "ctr_blob_deref");
  (MBlob, Plug "FREE", "ctr_blob_free");
  (MBlob, Plug "STRUCT_SET", "ctr_blob_new_struct");
  (MBlob, Plug "FREE_STRUCT", "ctr_blob_free_struct");
  (MBlob, Core (Dict "FROM_LENGTH"), "ctr_blob_read");
  (MColor, Core (Dict "NEW"), "ctr_color_new");
  (MColor, Plug "RED_GREEN_BLUE_SET", "ctr_color_rgb_set");
  (MColor, Plug "TRANSPARENCY_SET", "ctr_color_a_set");
  (MColor, Plug "RED", "ctr_color_r");
  (MColor, Plug "GREEN", "ctr_color_g");
  (MColor, Plug "BLUE", "ctr_color_b");
  (MColor, Plug "TRANSPARENCY", "ctr_color_a");
  (MPoint, Core (Dict "NEW"), "ctr_point_new");
  (MPoint, Plug "XY_SET", "ctr_point_xyset");
  (MPoint, Plug "X", "ctr_point_x");
  (MPoint, Plug "Y", "ctr_point_y");
  (MLine, Core (Dict "NEW"), "ctr_line_new");
  (MLine, Plug "FROM_TO_SET", "ctr_line_from_to");
  (MLine, Plug "FROM", "ctr_line_start");
  (MLine, Plug "TO", "ctr_line_end");
  (MMedia, Core (Dict "NEW"), "ctr_media_new");
  (MMedia, Plug "SCREEN", "ctr_media_screen");
  (MMedia, Plug "WIDTH_HEIGHT_SET", "ctr_media_width_height");
  (MMedia, Plug "XY_SET", "ctr_media_left_top");
  (MMedia, Plug "CLIPBOARD", "ctr_media_clipboard");
  (MMedia, Plug "CLIPBOARD_SET", "ctr_media_clipboard_set");
  (MMedia, Core (Dict "RUN"), "ctr_media_override");
  (MMedia, Plug "ON_STEP", "ctr_media_override");
  (MMedia, Plug "SELECTION", "ctr_media_select");
  (MMedia, Plug "LINK_SET", "ctr_media_link_package");
  (MMedia, Plug "TIMER_SET", "ctr_media_timer");
  (MMedia, Core (Dict "ONDO"), "ctr_media_on_do");
  (MMedia, Core (Dict "END"), "ctr_media_end");
  (MMedia, Core (Lit "sys:"), "ctr_media_system");
  (MMedia, Core (Lit "use:"), "ctr_media_include");
  (MMedia, Core (Lit "_datastart"), "ctr_media_datastart");
  (MMedia, Plug "DIALOG_SET", "ctr_media_dialog");
  (MMedia, Core (Lit "website:"), "ctr_media_website");
  (MMedia, Plug "FX", "ctr_media_fx");
  (MImage, Core (Dict "NEW"), "ctr_img_new");
  (MImage, Core (Dict "NEW_SET"), "ctr_img_new_set");
  (MImage, Plug "SOURCE_SET", "ctr_img_img");
  (MImage, Plug "CONTROLLABLE", "ctr_img_controllable");
  (MImage, Plug "XY_SET", "ctr_img_xy");
  (MImage, Plug "X", "ctr_img_x");
  (MImage, Plug "Y", "ctr_img_y");
  (MImage, Plug "MOVE_TO_XY_SET", "ctr_img_mov_set");
  (MImage, Plug "BOUNCE_SET", "ctr_img_bounce");
  (MImage, Plug "SOLID_SET", "ctr_img_solid");
  (MImage, Plug "ACTIVE_SET", "ctr_img_active");
  (MImage, Plug "GRAVITY_SET", "ctr_img_gravity");
  (MImage, Plug "SPEED_SET", "ctr_img_speed");
  (MImage, Plug "FRICTION_SET", "ctr_img_friction");
  (MImage, Plug "ACCELERATE_SET", "ctr_img_accel");
  (MImage, Plug "JUMPHEIGHT_SET", "ctr_img_jump_height");
  (MImage, Plug "COLLISION_SET", "ctr_media_override");
  (MImage, Plug "REEL_SET", "ctr_img_reel");
  (MImage, Plug "REEL_AUTOPLAY_SET", "ctr_img_autoplay");
  (MImage, Core (Dict "WRITE"), "ctr_img_text");
  (MImage, Core (Dict "TOSTRING"), "ctr_img_text_get");
  (MImage, Plug "CUT", "ctr_img_text_del");
  (MImage, Core (Dict "APPEND"), "ctr_img_text_ins");
  (MImage, Plug "EDITABLE_SET", "ctr_img_editable");
  (MImage, Plug "COLOR_SET", "ctr_img_color");
  (MImage, Plug "BACKGROUND_COLOR_SET", "ctr_img_background_color");
  (MImage, Plug "ALIGN_XY_SET", "ctr_img_text_align");
  (MImage, Plug "DRAW_COLOR_SET", "ctr_img_draw");
  (MImage, Plug "STATIC", "ctr_img_fixed_set");
  (MImage, Plug "GHOST_SET", "ctr_img_ghost_set");
  (MImage, Plug "NODIRANI_SET", "ctr_media_nodirani");
  (MImage, Plug "FONT_SET", "ctr_img_font");
  (MImage, Plug "LINEHEIGHT_SET", "ctr_img_lineheight");
  (MImage, Plug "XY_SET", "ctr_img_xy");
  (MImage, Plug "MOVE_TO_XY_SET", "ctr_img_mov_set");
  (MImage, Plug "VISIBLE_SET", "ctr_img_visible_set");
  (MImage, Plug "FREEZE_SET", "ctr_img_freeze");
  (MImage, Plug "MASK_SET", "ctr_img_mask_set");
  (MFont, Core (Dict "NEW"), "ctr_font_new");
  (MFont, Plug "SOURCE_SIZE_SET", "ctr_font_font");
  (MFont, Plug "FONTSCRIPT_TXTDIR_SET", "ctr_font_script_dir");
  (MAudio, Core (Dict "NEW"), "ctr_audio_new");
  (MSound, Core (Dict "NEW_SET"), "ctr_sound_new_set");
  (MSound, Plug "AUDIO_PLAY", "ctr_sound_play");
  (MMusic, Core (Dict "NEW_SET"), "ctr_music_new_set");
  (MMusic, Plug "AUDIO_PLAY", "ctr_music_play");
  (MAudio, Plug "AUDIO_SILENCE", "ctr_music_silence");
  (MAudio, Plug "AUDIO_REWIND", "ctr_music_rewind");
  (MNetwork, Core (Dict "NEW"), "ctr_network_new");
  (MNetwork, Plug "SEND_TEXT_MESSAGE", "ctr_network_basic_text_send");
  (MPackage, Core (Dict "NEW_SET"), "ctr_package_new_set");
  (MPackage, Core (Dict "APPEND"), "ctr_package_add");
  (MForeign, Core (Dict "RESPOND_TO"), "ctr_media_ffi_respond_to");
  (MForeign, Core (Dict "RESPOND_TO_AND"), "ctr_media_ffi_respond_to_and");
  (MForeign, Core (Dict "RESPOND_TO_AND_AND"), "ctr_media_ffi_respond_to_and_and");
  (MForeign, Core (Dict "RESPOND_TO_AND_AND_AND"), "ctr_media_ffi_respond_to_and_and_and")].

(** The calls of [ctr_internal_object_add_property] on CtrStdWorld (media.c 4564-4585), in order. *)
Definition mglobals : list (mkey * mobj) := [
  (Plug "MEDIA_PLUGIN_ID", MMedia);
  (Plug "BLOB_OBJECT", MBlob);
  (Plug "IMAGE_OBJECT", MImage);
  (Plug "FONT_OBJECT", MFont);
  (Plug "COLOR_OBJECT", MColor);
  (Plug "POINT_OBJECT", MPoint);
  (Plug "LINE_OBJECT", MLine);
  (Plug "AUDIO_OBJECT", MAudio);
  (Plug "SOUND_OBJECT", MSound);
  (Plug "MUSIC_OBJECT", MMusic);
  (Plug "NETWORK_OBJECT", MNetwork);
  (Plug "PACKAGE_OBJECT", MPackage);
  (Core (Lit "Media"), MMedia)].

(** The messages the plugin sends to images and to the media object when something happens
    (media.c 848, 1024-1028, 1328, 1418, 1479, 1515-1527, 1549-1561, 1578, 1599). *)
Definition mevents : list string := [
  "ON_CLICK"; "COLLISION_SET"; "ON_TIMER"; "ON_STEP"; "ON_CLICK_XY"; "ON_GAMEPAD_DOWN"; "ON_GAMEPAD_UP"; "ON_KEY_UP"; "ON_KEY_DOWN"].

(** plugins/media/i18n/*/media.h 1-83: the words of each language, in the order of [mmacros]. *)
Definition mdictionaries : list (string * list string) := [
  ("cs", ["_Media"; "Síť"; "Barva"; "Bod"; "Čára"; "Obrázek"; "Písmo"; "Audio"; "Zvuk"; "Hudba"; "Paket"; "Blob"; "obrazovka:"; "schránka"; "krok"; "klávesa:"; "klávesa stisknuto:"; "alarm:"; "gamepad stisknuto:"; "gamepad:"; "alarm:čekat:"; "odkaz:"; "výběr"; "text:až:"; "červená"; "zelená"; "modrá"; "průhlednost"; "zdroj:"; "ovladatelné:"; "blokáda:"; "aktivní:"; "gravitace:"; "rychlost:"; "odpor:"; "kolize:"; "klikněte"; "filmové-kolo:rychlost:"; "automaticky:"; "řezat"; "zapisovatelné:"; "písmo:"; "výška-řádku:"; "inkoust:"; "barva-zvýraznění:"; "kresba:barva:"; "od"; "do"; "zrychlete:"; "skočte do výšky:"; "odrazit:"; "duch:"; "statický:"; "imobilní:"; "destinace"; "přehrávání"; "ticho"; "přetočit"; "x:y:"; "viditelný:"; "šířka:výška:"; "zarovnat-x:y:"; "přesun-na-x:y:"; "klikněte-x:y:"; "x?"; "y?"; "zdroj:velikost:"; "styl-textu:směr-psaní:"; "zobrazit:"; "schránka:"; "od:do:"; "červená:zelená:modrá:"; "průhlednost:"; "bytes:"; "free"; "structfree"; "struct:"; "deref"; "utf8:"; "new:type:"; "efekt:možnosti:"; "zmrazit:"; "maska:"]);
  ("de", ["_Medien"; "Netzwerk"; "Farbe"; "Punkt"; "Linie"; "Bild"; "Schrift"; "Audio"; "Ton"; "Musik"; "Paket"; "Blob"; "bildschirm:"; "zwischenablage"; "schritt"; "taste:"; "taste-nach-unten:"; "timer:"; "gamepad-nach-unten:"; "gamepad:"; "timer:nach:"; "link:"; "ausgewählt"; "senden:an:"; "rot"; "grün"; "blau"; "transparenz"; "quelle:"; "steuerbar:"; "wand:"; "aktiv:"; "schwerkraft:"; "geschwindigkeit:"; "reibung:"; "kollision:"; "klick"; "spule:geschwindigkeit:"; "automatisch-abspielen:"; "ausschneiden"; "bearbeitbar:"; "schrift:"; "zeilenhöhe:"; "tinte:"; "hervorheben:"; "zeichnen:farbe:"; "von"; "zu"; "beschleunigen:"; "sprunghöhe:"; "springen:"; "geist:"; "statisch:"; "fixieren:"; "ziel"; "abspielen"; "stille"; "zurückspulen"; "x:y:"; "sichtbar:"; "breite:höhe:"; "ausrichten-x:y:"; "zu-x:y:"; "klick-x:y:"; "x?"; "y?"; "quelle:größe:"; "schriftstil:richtung:"; "anzeigen:"; "zwischenablage:"; "von:zu:"; "rot:grün:blau:"; "transparenz:"; "bytes:"; "frei"; "struktur-frei"; "struktur:"; "dereferenzieren"; "utf8:"; "neu:typ:"; "effekt:optionen:"; "einfrieren:"; "maskieren:"]);
  ("en", ["_Media"; "Network"; "Color"; "Point"; "Line"; "Image"; "Font"; "Audio"; "Sound"; "Music"; "Package"; "Blob"; "screen:"; "clipboard"; "step"; "key:"; "key-down:"; "timer:"; "gamepad-down:"; "gamepad:"; "timer:after:"; "link:"; "selected"; "send:to:"; "red"; "green"; "blue"; "transparency"; "source:"; "controllable:"; "wall:"; "active:"; "gravity:"; "speed:"; "friction:"; "collision:"; "click"; "reel:speed:"; "autoplay:"; "cut"; "editable:"; "font:"; "line-height:"; "ink:"; "highlight:"; "draw:color:"; "from"; "to"; "accelerate:"; "jump-height:"; "bounce:"; "ghost:"; "static:"; "fixate:"; "destination"; "play"; "silence"; "rewind"; "x:y:"; "visible:"; "width:height:"; "align-x:y:"; "to-x:y:"; "click-x:y:"; "x?"; "y?"; "source:size:"; "text-style:direction:"; "show:"; "clipboard:"; "from:to:"; "red:green:blue:"; "transparency:"; "bytes:"; "free"; "structfree"; "struct:"; "deref"; "utf8:"; "new:type:"; "effect:options:"; "freeze:"; "mask:"]);
  ("es", ["_Media"; "Red"; "Color"; "Punto"; "Línea"; "Imagen"; "Fuente"; "Audio"; "Sonido"; "Música"; "Paquete"; "Blob"; "pantalla:"; "portapapeles"; "paso"; "flecha-arriba:"; "flecha-abajo:"; "temporizador:"; "mando-hacia-abajo:"; "mando-hacia-arriba:"; "temporizador:después:"; "enlace:"; "seleccionado"; "enviar:a:"; "rojo"; "verde"; "azul"; "transparencia"; "fuente:"; "controlable:"; "muro:"; "activa:"; "gravedad:"; "velocidad:"; "fricción:"; "colisión:"; "click"; "cortometraje:velocidad:"; "reproducir-automáticamente:"; "cortar"; "editable:"; "fuente:"; "linea-altura:"; "tinta:"; "destacar:"; "dibujar:color:"; "desde"; "hasta"; "acelerar:"; "saltar-altura:"; "rebote:"; "fantasma:"; "estático:"; "fijar:"; "destino"; "reproducir"; "silenciar"; "rebobinar"; "x:y:"; "visible:"; "ancho:alto:"; "alinear-x:y:"; "hacia-x:y:"; "click-x:y:"; "x?"; "y?"; "fuente:tamaño:"; "estilo-del-texto:dirección:"; "mostrar:"; "portapapeles:"; "desde:hasta:"; "rojo:verde:azul:"; "transparencia:"; "bytes:"; "libre"; "sin-estructura"; "estructura:"; "dereferencia"; "utf8:"; "nuevo:tipo:"; "efecto:opciones:"; "congelar:"; "enmascarar:"]);
  ("fa", ["_رسانه"; "شبکه"; "رنگ"; "نقطه"; "خط"; "تصویر"; "فونت"; "صدا"; "صدای بازی"; "موسیقی"; "بسته"; "بلاب"; "صفحه‌نمایش:"; "کلیپ‌بورد"; "مرحله"; "کلید:"; "کلید-پایین:"; "تایمر:"; "گیم‌پد-پایین:"; "گیم‌پد:"; "تایمر:بعداز:"; "لینک:"; "انتخاب شده"; "ارسال:به:"; "قرمز"; "سبز"; "آبی"; "شفافیت"; "منبع:"; "قابل‌کنترل:"; "دیوار:"; "فعال:"; "گرانش:"; "سرعت:"; "اصطکاک:"; "برخورد:"; "کلیک"; "سرعت:سیم‌پیچ:"; "پخش‌خودکار:"; "برش"; "قابل‌ویرایش:"; "فونت:"; "ارتفاع‌خط:"; "جوهر:"; "برجسته‌سازی:"; "رنگ:رسم:"; "از"; "به"; "شتاب:"; "ارتفاع‌پرش:"; "بازگشت:"; "شبح:"; "ثابت:"; "تثبیت:"; "مقصد:"; "پخش"; "سکوت"; "عقب‌گرد"; "x:y:"; "قابل‌مشاهده:"; "عرض:ارتفاع:"; "تراز-x:y:"; "به-x:y:"; "کلیک-x:y:"; "x؟"; "y؟"; "منبع:اندازه:"; "سبک‌متن:جهت:"; "نمایش:"; "کلیپ‌بورد:"; "از:به:"; "قرمز:سبز:آبی:"; "شفافیت:"; "بایت:"; "رایگان"; "آزادسازی ساختار"; "ساختار:"; "بازنشانی"; "utf8:"; "جدید:نوع:"; "اثر:گزینه‌ها:"; "یخ زدن:"; "پوشاندن:"]);
  ("fr", ["_Media"; "Réseau"; "Couleur"; "Point"; "Ligne"; "Image"; "Fonte"; "Audio"; "Son"; "Musique"; "Paquet"; "Blob"; "affichage:"; "presse-papier"; "étape"; "touche:"; "touche enfoncée:"; "alarme:"; "gamepad enfoncée:"; "gamepad:"; "alarme:attends:"; "lien:"; "sélection"; "message:à:"; "rouge"; "vert"; "bleu"; "transparence"; "source:"; "orientable:"; "blocs:"; "actif:"; "gravité:"; "vitesse:"; "friction:"; "collision:"; "cliquez"; "roue:vitesse:"; "automatiquement:"; "couper"; "éditable:"; "fonte:"; "hauteur-ligne:"; "encre:"; "marqueur:"; "dessiner:couleur:"; "de?"; "à?"; "accélérer:"; "hauteur du saut:"; "rebond:"; "fantôme:"; "statique:"; "fixé:"; "destination"; "jouer"; "silence"; "rembobiner"; "x:y:"; "visible:"; "largeur:hauteur:"; "aligner x:y:"; "déplacer à x:y:"; "cliquez x:y:"; "x?"; "y?"; "source:taille:"; "style-texte:direction:"; "montrer:"; "presse-papier:"; "de:à:"; "rouge:vert:bleu:"; "transparance:"; "bytes:"; "free"; "structfree"; "struct:"; "deref"; "utf8:"; "new:type:"; "effet:options:"; "geler:"; "masquer:"]);
  ("fy", ["_Media"; "Netwurk"; "Kleur"; "Punt"; "Line"; "Ofbylding"; "Lettertype"; "Audio"; "Lûd"; "Muzyk"; "Pakket"; "Blob"; "skerm:"; "klamboerd"; "stap"; "toets:"; "toets-omleech:"; "tiid:"; "spultsje-omleech:"; "spultsje:"; "tiid:nei:"; "keppeling:"; "selektearre"; "stjoere:oan:"; "read"; "grien"; "blau"; "trochsichtichheid"; "boarne:"; "kontrôle:"; "muorre:"; "aktyf:"; "swiertekrêft:"; "faasje:"; "friksje:"; "botsing:"; "klikke"; "spul:snelheid:"; "autoplay:"; "knippe"; "bewurkber:"; "lettertype:"; "line-hichte:"; "ynk:"; "markearring:"; "tekenje:kleur:"; "fan"; "oan"; "fersnelle:"; "sprong-hichte:"; "stuitsje:"; "spoek:"; "statysk:"; "fêstlizze:"; "bestimming"; "spielje"; "stilte"; "weromspoelje"; "x:y:"; "sichtber:"; "breedte:hichte:"; "útline-x:y:"; "nei-x:y:"; "klikke-x:y:"; "x?"; "y?"; "boarne:grutte:"; "tekst-styl:rjochting:"; "toane:"; "klamboerd:"; "fan:oan:"; "read:grien:blau:"; "trochsichtichheid:"; "bytes:"; "frij"; "frijstruktuer"; "struktuer:"; "deref"; "utf8:"; "nij:type:"; "effekt:opsjes:"; "befrieze:"; "maskearje:"]);
  ("hi", ["_Media"; "नेटवर्क"; "रंग"; "बिंदु"; "रेखा"; "छवि"; "फ़ॉन्ट"; "ऑडियो"; "ध्वनि"; "संगीत"; "पैकेज"; "ब्लॉब"; "प्रदर्शन:"; "क्लिपबोर्ड"; "कदम"; "कुंजी:"; "कुंजी दबाया:"; "अलार्म:"; "गेमपैड दबाया:"; "गेमपैड:"; "अलार्म:रुको:"; "कनेक्शन:"; "चयन"; "पाठ:भेजें:"; "लाल"; "ग्रीन"; "नीला"; "पारदर्शिता"; "स्रोत:"; "प्रबंधनीय:"; "नाकाबंदी:"; "सक्रिय:"; "गुरुत्वाकर्षण:"; "गति:"; "प्रतिरोध:"; "टक्कर:"; "सिंगल क्लिक"; "रील:स्पीड:"; "ऑटोप्ले:"; "काटना"; "लिखने योग्य:"; "फ़ॉन्ट:"; "लाइन-ऊंचाई:"; "इंक:"; "हाइलाइट:"; "फ़ॉन्ट:रंग:"; "से"; "जा"; "तेजी लाने:"; "कूद ऊंचाई:"; "बाउंसर:"; "घोस्ट:"; "स्थिर:"; "जमाना:"; "गंतव्य"; "प्लेबैक"; "मौन"; "रिवाइंड"; "x:y:"; "दृश्यमान:"; "चौड़ाई:ऊंचाई:"; "यूटीलिजनेन लिंक:हुगटे:"; "करने-के-लिए-कदम:"; "क्लिक-लिंक:हुगटे:"; "x?"; "y?"; "स्रोत:साथी:"; "भाषा:दिशा:"; "दिखाओ:"; "क्लिपबोर्ड:"; "से:जा:"; "लाल:ग्रीन:नीला:"; "पारदर्शिता:"; "bytes:"; "free"; "structfree"; "struct:"; "deref"; "utf8:"; "new:type:"; "प्रभाव:"; "जमना:"; "छुपाना:"]);
  ("id", ["_Media"; "Jaringan"; "Warna"; "Titik"; "Garis"; "Gambar"; "Huruf"; "Audio"; "Suara"; "Musik"; "Paket"; "Blob"; "layar:"; "papan-klip"; "langkah"; "tombol:"; "tombol-bawah:"; "alarm:"; "pengendali-bawah:"; "pengendali:"; "alarm:setelah:"; "tautan:"; "terpilih"; "kirim:ke:"; "merah"; "hijau"; "biru"; "transparansi"; "sumber:"; "terkendali:"; "dinding:"; "aktif:"; "gravitasi:"; "kecepatan:"; "gesekan:"; "tabrakan:"; "klik"; "gulungan:kecepatan:"; "putar-otomatis:"; "potong"; "dapat-diedit:"; "huruf:"; "tinggi-garis:"; "tinta:"; "sorot:"; "gambar:warna:"; "dari"; "ke"; "percepat:"; "tinggi-lompatan:"; "pantul:"; "hantu:"; "statis:"; "tetapkan:"; "tujuan"; "mainkan"; "diam"; "putar-balik"; "x:y:"; "terlihat:"; "lebar:tinggi:"; "rata-x:y:"; "ke-x:y:"; "klik-x:y:"; "x?"; "y?"; "sumber:ukuran:"; "gaya-teks:arah:"; "tampilkan:"; "papan-klip:"; "dari:ke:"; "merah:hijau:biru:"; "transparansi:"; "byte:"; "membebaskan"; "struktur-membebaskan"; "struktur:"; "dereferensi"; "utf8:"; "baru:tipe:"; "efek:opsi:"; "membekukan:"; "masker:"]);
  ("it", ["_Media"; "Rete"; "Colore"; "Punto"; "Linea"; "Immagine"; "Tipografia"; "Audio"; "Suono"; "Musica"; "Pacchetto"; "Blob"; "schermo:"; "appunti"; "passo"; "tasto:"; "tasto-giu:"; "timer:"; "gamepad-giu:"; "gamepad:"; "timer:dopo:"; "link:"; "selezionato"; "invia:a:"; "rosso"; "verde"; "blu"; "trasparenza"; "sorgente:"; "controllabile:"; "muro:"; "attivo:"; "gravita:"; "velocita:"; "attrito:"; "collisione:"; "clic"; "bobina:velocita:"; "riproduzione-automatica:"; "taglia"; "modificabile:"; "tipografia:"; "altezza-riga:"; "inchiostro:"; "evidenzia:"; "disegna:colore:"; "da"; "a"; "accelera:"; "altezza-salto:"; "rimbalzo:"; "fantasma:"; "statico:"; "fissa:"; "destinazione"; "riproduci"; "silenzio"; "riavvolgi"; "x:y:"; "visibile:"; "larghezza:altezza:"; "allinea-x:y:"; "a-x:y:"; "clic-x:y:"; "x?"; "y?"; "sorgente:dimensione:"; "stile-testo:direzione:"; "mostra:"; "appunti:"; "da:a:"; "rosso:verde:blu:"; "trasparenza:"; "byte:"; "libero"; "libera-struttura"; "struttura:"; "dereferenzia"; "utf8:"; "nuovo:tipo:"; "effetto:opzioni:"; "congelare:"; "mascherare:"]);
  ("nl", ["_Media"; "Netwerk"; "Kleur"; "Punt"; "Lijn"; "Plaatje"; "Lettertype"; "Audio"; "Geluid"; "Muziek"; "Pakketje"; "Blob"; "scherm:"; "klembord"; "stap"; "toets:"; "toetsin:"; "wekker:"; "gamepadin:"; "gamepad:"; "wekker:over:"; "koppel:"; "selectie"; "stuur:naar:"; "rood"; "groen"; "blauw"; "transparantie"; "bron:"; "besturing:"; "muur:"; "actief:"; "zwaartekracht:"; "snelheid:"; "weerstand:"; "bots:"; "klik"; "filmrol:snelheid:"; "autospeel:"; "knip"; "beschrijfbaar:"; "lettertype:"; "regelhoogte:"; "inkt:"; "stift:"; "tekenen:kleur:"; "vanuit"; "naar"; "versnel:"; "springhoogte:"; "stuiter:"; "spook:"; "statisch:"; "fixeer:"; "bestemming"; "afspelen"; "stil"; "terugspoelen"; "x:y:"; "zichtbaar:"; "breedte:hoogte:"; "uitlijnen-x:y:"; "naar-x:y:"; "klik-x:y:"; "x?"; "y?"; "bron:grootte:"; "schrijfwijze:richting:"; "toon:"; "klembord:"; "vanuit:naar:"; "rood:groen:blauw:"; "transparantie:"; "bytes:"; "vrij"; "structvrij"; "struct:"; "deref"; "utf8:"; "nieuw:type:"; "effect:opties:"; "bevriezen:"; "maskeren:"]);
  ("no", ["_Media"; "Nettverk"; "Farge"; "Punkt"; "Linje"; "Bilde"; "Skrift"; "Lyd"; "Støy"; "Musikk"; "Pakke"; "Klump"; "skjerm:"; "utklippstavle"; "trinn"; "tast:"; "tast-ned:"; "tidtaker:"; "spillkontroller-ned:"; "spillkontroller:"; "tidtaker:etter:"; "lenke:"; "valgt"; "send:til:"; "rød"; "grønn"; "blå"; "gjennomsiktighet"; "kilde:"; "kontrollerbar:"; "vegg:"; "aktiv:"; "tyngdekraft:"; "hastighet:"; "friksjon:"; "kollisjon:"; "klikk"; "snelle:hastighet:"; "automatisk-avspilling:"; "klipp"; "redigerbar:"; "skrift:"; "linjehøyde:"; "blekk:"; "utheving:"; "tegn:farge:"; "fra"; "til"; "akselerere:"; "hopp-høyde:"; "sprett:"; "spøkelse:"; "statisk:"; "fikser:"; "destinasjon"; "spill"; "stillhet"; "spol-tilbake"; "x:y:"; "synlig:"; "bredde:høyde:"; "juster-x:y:"; "til-x:y:"; "klikk-x:y:"; "x?"; "y?"; "kilde:størrelse:"; "tekststil:retning:"; "vis:"; "utklippstavle:"; "fra:til:"; "rød:grønn:blå:"; "gjennomsiktighet:"; "bytes:"; "fri"; "strukturfri"; "struktur:"; "dereferanse"; "utf8:"; "ny:type:"; "effekt:innstillinger:"; "fryse:"; "maskere:"]);
  ("pl", ["_Media"; "Sieć"; "Kolor"; "Punkt"; "Linia"; "Obraz"; "Czcionka"; "Audio"; "Dźwięk"; "Muzyka"; "Pakiet"; "Kawałek"; "ekran:"; "schowek"; "krok"; "klawisz:"; "klawisz-dół:"; "alarm:"; "pad-dół:"; "pad:"; "zegar:po:"; "link:"; "wybrany"; "wyślij:do:"; "czerwony"; "zielony"; "niebieski"; "przezroczystość"; "źródło:"; "kontrolowalny:"; "ściana:"; "aktywny:"; "grawitacja:"; "prędkość:"; "tarcie:"; "kolizja:"; "kliknij"; "szpula:prędkość:"; "autoodtwarzanie:"; "tnij"; "edytowalny:"; "czcionka:"; "wysokość-linii:"; "atrament:"; "podświetlenie:"; "rysuj:kolor:"; "z?"; "do"; "przyspiesz:"; "wysokość-skoku:"; "odbicie:"; "duch:"; "statyczny:"; "ustabilizuj:"; "cel"; "graj"; "cisza"; "przewiń"; "x:y:"; "widoczny:"; "szerokość:wysokość:"; "wyrównaj-x:y:"; "do-x:y:"; "kliknij-x:y:"; "x?"; "y?"; "źródło:rozmiar:"; "styl-tekstu:kierunek:"; "pokaż:"; "schowek:"; "z:do:"; "czerwony:zielony:niebieski:"; "przezroczystość:"; "bajty:"; "wolny"; "struktura-wolna"; "struktura:"; "dereferencja"; "utf8:"; "nowy:typ:"; "efekt:ustawienia:"; "zamrozić:"; "maskować:"]);
  ("pt_br", ["_Mídia"; "Rede"; "Cor"; "Ponto"; "Linha"; "Imagem"; "Tipografia"; "Áudio"; "Som"; "Música"; "Pacote"; "Massa"; "tela:"; "prancheta"; "passo"; "tecla:"; "tecla-baixo:"; "alarme:"; "controle-baixo:"; "controle:"; "alarme:depois:"; "link:"; "selecionado"; "enviar:para:"; "vermelho"; "verde"; "azul"; "transparência"; "fonte:"; "controlável:"; "parede:"; "ativo:"; "gravidade:"; "velocidade:"; "atrito:"; "colisão:"; "clique"; "rolo:velocidade:"; "auto-reprodução:"; "corte"; "editável:"; "tipografia:"; "altura-da-linha:"; "tinta:"; "destaque:"; "desenhar:cor:"; "de"; "para"; "acelerar:"; "altura-do-salto:"; "quicar:"; "fantasma:"; "estático:"; "fixar:"; "destino"; "tocar"; "silêncio"; "rebobinar"; "x:y:"; "visível:"; "largura:altura:"; "alinhar-x:y:"; "para-x:y:"; "clique-x:y:"; "x?"; "y?"; "fonte:tamanho:"; "estilo-de-texto:direção:"; "mostrar:"; "prancheta:"; "de:para:"; "vermelho:verde:azul:"; "transparência:"; "bytes:"; "livre"; "estrutura-livre"; "estrutura:"; "desreferenciar"; "utf8:"; "novo:tipo:"; "efeito:configurações:"; "congelar:"; "mascarar:"]);
  ("ru", ["_Медиа"; "Сеть"; "Цвет"; "Точка"; "Линия"; "Изображение"; "Шрифт"; "Аудио"; "Звук"; "Музыка"; "Пакет"; "Сгусток"; "экран:"; "буфер-обмена"; "шаг"; "клавиша:"; "клавиша-вниз:"; "таймер:"; "геймпад-вниз:"; "геймпад:"; "таймер:после:"; "ссылка:"; "выбрано"; "отправить:кому:"; "красный"; "зелёный"; "синий"; "прозрачность"; "источник:"; "управляемый:"; "стена:"; "активный:"; "гравитация:"; "скорость:"; "трение:"; "столкновение:"; "нажать"; "катушка:скорость:"; "автовоспроизведение:"; "вырезать"; "редактируемый:"; "шрифт:"; "высота-линии:"; "чернила:"; "выделение:"; "рисовать:цвет:"; "от"; "до"; "ускорение:"; "высота-прыжка:"; "прыжок:"; "призрак:"; "статичный:"; "закрепить:"; "пункт-назначения"; "воспроизвести"; "тишина"; "перемотать"; "x:y:"; "видимый:"; "ширина:высота:"; "выравнять-x:y:"; "к-x:y:"; "нажать-x:y:"; "x?"; "y?"; "источник:размер:"; "стиль-текста:направление:"; "показать:"; "буфер-обмена:"; "от:до:"; "красный:зелёный:синий:"; "прозрачность:"; "байты:"; "свободный"; "освободить-структуру"; "структура:"; "разыменование"; "utf8:"; "новый:тип:"; "эффект:настройки:"; "заморозить:"; "маскировать:"]);
  ("uz", ["_Media"; "Tarmoq"; "Rang"; "Nuqta"; "Chiziq"; "Rasm"; "Shrift"; "Ovoz"; "Tovush"; "Musiqa"; "Paket"; "Blob"; "ekran:"; "bufir"; "qadam"; "tugma:"; "tugma-pastga:"; "taymer:"; "o‘yinpad-pastga:"; "o‘yinpad:"; "taymer:keyin:"; "havola:"; "tanlangan"; "yubor:ga:"; "qizil"; "yashil"; "ko‘k"; "shaffoflik"; "manba:"; "boshqariladigan:"; "devor:"; "faol:"; "gravitatsiya:"; "tezlik:"; "ishqalanish:"; "to‘qnashuv:"; "bosing"; "g‘altak:tezlik:"; "avtomatik-o‘ynatish:"; "kesish"; "tahrirlanadigan:"; "shrift:"; "chiziq-balandligi:"; "siyoh:"; "yoritilgan:"; "chiz:rangi:"; "dan"; "ga"; "tezlashtir:"; "sakrash-balandligi:"; "sakrash:"; "maxluq:"; "statik:"; "mustahkamla:"; "manzil"; "ijro"; "sukunat"; "orqaga-o‘rash"; "x:y:"; "ko‘rinadigan:"; "kenglik:balandlik:"; "moslash-x:y:"; "ga-x:y:"; "bosish-x:y:"; "x?"; "y?"; "manba:hajmi:"; "matn-uslubi:yo‘nalishi:"; "ko‘rsat:"; "bufir:"; "dan:ga:"; "qizil:yashil:ko‘k:"; "shaffoflik:"; "baytlar:"; "bepul"; "strukturani-bepul-qilish"; "strukturasi:"; "manzildan-chiqarish"; "utf8:"; "yangi:tur:"; "ta'sir:sozlamalar:"; "muzlatish:"; "maskalash:"]);
  ("zh2", ["_媒体"; "网络"; "颜色"; "点"; "线"; "图像"; "字体"; "音频"; "声音"; "音乐"; "包"; "数据块"; "屏幕:"; "剪贴板"; "步!"; "键:"; "键-按下:"; "定时器:"; "手柄-按下:"; "手柄:"; "定时器:后:"; "链接:"; "选择的"; "发送:给:"; "红色"; "绿色"; "蓝色"; "透明度"; "来源:"; "可控:"; "墙:"; "激活:"; "重力:"; "速度:"; "摩擦:"; "碰撞:"; "点击"; "卷轴:速度:"; "自动播放:"; "剪切"; "可编辑:"; "字体:"; "行高:"; "墨水:"; "高亮:"; "绘制:颜色:"; "从?"; "到?"; "加速:"; "跳跃高度:"; "弹跳:"; "幽灵:"; "静态:"; "固定:"; "目的地"; "播放"; "静音"; "倒带"; "x:y:"; "可见:"; "宽:高:"; "对齐-x:y:"; "到-x:y:"; "点击-x:y:"; "x?"; "y?"; "来源:大小:"; "文本样式:方向:"; "显示:"; "剪贴板:"; "从:到:"; "红:绿:蓝:"; "透明度:"; "字节:"; "释放"; "释放结构"; "结构:"; "解引用"; "utf8:"; "新:类型:"; "效果:设置:"; "冻结:"; "掩码:"])].

(** The modifiers behind words (es/media.h 29, 42). *)
Definition mmodifiers : list (string * string * string) := [("es", "SOURCE_SET", "source#"); ("es", "FONT_SET", "font#")].

(** How many of [argumentList] the C functions above read, themselves or in the function they pass the list
    on to; [ctr_media_override] (media.c 3182-3184) ignores what it gets. *)
Definition mtakes : list (string * nat) := [
  ("ctr_blob_new_set", 1);
  ("ctr_blob_tostring", 0);
  ("ctr_blob_fill", 1);
  ("ctr_blob_utf8_set", 1);
  ("ctr_blob_new_set_type", 2);
  ("ctr_blob_deref", 0);
  ("ctr_blob_free", 0);
  ("ctr_blob_new_struct", 1);
  ("ctr_blob_free_struct", 0);
  ("ctr_blob_read", 2);
  ("ctr_color_new", 0);
  ("ctr_color_rgb_set", 3);
  ("ctr_color_a_set", 1);
  ("ctr_color_r", 0);
  ("ctr_color_g", 0);
  ("ctr_color_b", 0);
  ("ctr_color_a", 0);
  ("ctr_point_new", 0);
  ("ctr_point_xyset", 2);
  ("ctr_point_x", 0);
  ("ctr_point_y", 0);
  ("ctr_line_new", 0);
  ("ctr_line_from_to", 2);
  ("ctr_line_start", 0);
  ("ctr_line_end", 0);
  ("ctr_media_new", 0);
  ("ctr_media_screen", 1);
  ("ctr_media_width_height", 2);
  ("ctr_media_left_top", 2);
  ("ctr_media_clipboard", 0);
  ("ctr_media_clipboard_set", 1);
  ("ctr_media_override", 0);
  ("ctr_media_select", 0);
  ("ctr_media_link_package", 1);
  ("ctr_media_timer", 2);
  ("ctr_media_on_do", 2);
  ("ctr_media_end", 0);
  ("ctr_media_system", 1);
  ("ctr_media_include", 1);
  ("ctr_media_datastart", 0);
  ("ctr_media_dialog", 1);
  ("ctr_media_website", 1);
  ("ctr_media_fx", 2);
  ("ctr_img_new", 0);
  ("ctr_img_new_set", 1);
  ("ctr_img_img", 1);
  ("ctr_img_controllable", 1);
  ("ctr_img_xy", 2);
  ("ctr_img_x", 0);
  ("ctr_img_y", 0);
  ("ctr_img_mov_set", 2);
  ("ctr_img_bounce", 1);
  ("ctr_img_solid", 1);
  ("ctr_img_active", 1);
  ("ctr_img_gravity", 1);
  ("ctr_img_speed", 1);
  ("ctr_img_friction", 1);
  ("ctr_img_accel", 1);
  ("ctr_img_jump_height", 1);
  ("ctr_img_reel", 2);
  ("ctr_img_autoplay", 1);
  ("ctr_img_text", 1);
  ("ctr_img_text_get", 0);
  ("ctr_img_text_del", 0);
  ("ctr_img_text_ins", 1);
  ("ctr_img_editable", 1);
  ("ctr_img_color", 1);
  ("ctr_img_background_color", 1);
  ("ctr_img_text_align", 2);
  ("ctr_img_draw", 2);
  ("ctr_img_fixed_set", 1);
  ("ctr_img_ghost_set", 1);
  ("ctr_media_nodirani", 1);
  ("ctr_img_font", 1);
  ("ctr_img_lineheight", 1);
  ("ctr_img_visible_set", 1);
  ("ctr_img_freeze", 1);
  ("ctr_img_mask_set", 1);
  ("ctr_font_new", 0);
  ("ctr_font_font", 2);
  ("ctr_font_script_dir", 2);
  ("ctr_audio_new", 0);
  ("ctr_sound_new_set", 1);
  ("ctr_sound_play", 0);
  ("ctr_music_new_set", 1);
  ("ctr_music_play", 0);
  ("ctr_music_silence", 0);
  ("ctr_music_rewind", 0);
  ("ctr_network_new", 0);
  ("ctr_network_basic_text_send", 2);
  ("ctr_package_new_set", 1);
  ("ctr_package_add", 1);
  ("ctr_media_ffi_respond_to", 1);
  ("ctr_media_ffi_respond_to_and", 2);
  ("ctr_media_ffi_respond_to_and_and", 3);
  ("ctr_media_ffi_respond_to_and_and_and", 4);
  ("ctr_media_override", 1)].
