(** Messages: [messages/en.py], [messages/de.py], [messages/es.py] (generated from their text).
    A locale is a Python module; here a record of its constants and functions.  [getattr(messages,
    name)] / [getattr(messages, name + '_with_key')] (errors/validation.py:41,90,100) become
    [plain]/[with_key]. *)
From Verif Require Import Base.
Local Open Scope string_scope.
Local Open Scope list_scope.

Inductive qmsg :=
| Q_expected_empty
| Q_expected_field
| Q_expected_fields
| Q_expected_fieldset
| Q_expected_fieldsets
| Q_expected_list
| Q_expected_lists
| Q_expected_section
| Q_expected_sections
| Q_expected_single_element
| Q_expected_single_empty
| Q_expected_single_field
| Q_expected_single_fieldset
| Q_expected_single_fieldset_entry
| Q_expected_single_list
| Q_expected_single_section
| Q_missing_element
| Q_missing_empty
| Q_missing_field
| Q_missing_fieldset
| Q_missing_fieldset_entry
| Q_missing_list
| Q_missing_section.

Record locale := MkLocale {
  plain : qmsg -> text;
  with_key : qmsg -> text -> text;
  lc_content_header : text;
  lc_gutter_header : text;
  lc_missing_comment : text;
  lc_unexpected_element : text;
  lc_expected_fieldset_entry : text;
  lc_expected_list_item : text;
  lc_comment_error : text -> text;
  lc_key_error : text -> text;
  lc_value_error : text -> text;
  lc_cyclic_dependency : nat -> text -> text;
  lc_invalid_line : nat -> text;
  lc_missing_element_for_continuation : nat -> text;
  lc_missing_field_value : text -> text;
  lc_missing_fieldset_entry_value : text -> text;
  lc_missing_list_item_value : text -> text;
  lc_missing_fieldset_for_fieldset_entry : nat -> text;
  lc_missing_list_for_list_item : nat -> text;
  lc_non_section_element_not_found : nat -> text -> text;
  lc_section_hierarchy_layer_skip : nat -> text;
  lc_section_not_found : nat -> text -> text;
  lc_two_or_more_templates_found : text -> text;
  lc_unterminated_escaped_key : nat -> text;
  lc_unterminated_multiline_field : text -> nat -> text
}.

(** messages/en.py *)
Definition en : locale := MkLocale
  (fun q => match q with
   | Q_expected_empty => U "An empty element was expected."
   | Q_expected_field => U "A field was expected."
   | Q_expected_fields => U "Only fields were expected."
   | Q_expected_fieldset => U "A fieldset was expected."
   | Q_expected_fieldsets => U "Only fieldsets were expected."
   | Q_expected_list => U "A list was expected."
   | Q_expected_lists => U "Only lists were expected."
   | Q_expected_section => U "A section was expected."
   | Q_expected_sections => U "Only sections were expected."
   | Q_expected_single_element => U "Only a single element was expected."
   | Q_expected_single_empty => U "Only a single empty element was expected."
   | Q_expected_single_field => U "Only a single field was expected."
   | Q_expected_single_fieldset => U "Only a single fieldset was expected."
   | Q_expected_single_fieldset_entry => U "Only a single fieldset entry was expected."
   | Q_expected_single_list => U "Only a single list was expected."
   | Q_expected_single_section => U "Only a single section was expected."
   | Q_missing_element => U "A single element is required - it can have any key."
   | Q_missing_empty => U "A single empty element is required - it can have any key."
   | Q_missing_field => U "A single field is required - it can have any key."
   | Q_missing_fieldset => U "A single fieldset is required - it can have any key."
   | Q_missing_fieldset_entry => U "A single fieldset entry is required - it can have any key."
   | Q_missing_list => U "A single list is required - it can have any key."
   | Q_missing_section => U "A single section is required - it can have any key."
   end)
  (fun q key => match q with
   | Q_expected_empty => U "An empty element with the key '" ++ key ++ U "' was expected."
   | Q_expected_field => U "A field with the key '" ++ key ++ U "' was expected."
   | Q_expected_fields => U "Only fields with the key '" ++ key ++ U "' were expected."
   | Q_expected_fieldset => U "A fieldset with the key '" ++ key ++ U "' was expected."
   | Q_expected_fieldsets => U "Only fieldsets with the key '" ++ key ++ U "' were expected."
   | Q_expected_list => U "A list with the key '" ++ key ++ U "' was expected."
   | Q_expected_lists => U "Only lists with the key '" ++ key ++ U "' were expected."
   | Q_expected_section => U "A section with the key '" ++ key ++ U "' was expected."
   | Q_expected_sections => U "Only sections with the key '" ++ key ++ U "' were expected."
   | Q_expected_single_element => U "Only a single element with the key '" ++ key ++ U "' was expected."
   | Q_expected_single_empty => U "Only a single empty element with the key '" ++ key ++ U "' was expected."
   | Q_expected_single_field => U "Only a single field with the key '" ++ key ++ U "' was expected."
   | Q_expected_single_fieldset => U "Only a single fieldset with the key '" ++ key ++ U "' was expected."
   | Q_expected_single_fieldset_entry => U "Only a single fieldset entry with the key '" ++ key ++ U "' was expected."
   | Q_expected_single_list => U "Only a single list with the key '" ++ key ++ U "' was expected."
   | Q_expected_single_section => U "Only a single section with the key '" ++ key ++ U "' was expected."
   | Q_missing_element => U "The element '" ++ key ++ U "' is missing - in case it has been specified look for typos and also check for correct capitalization."
   | Q_missing_empty => U "The empty element '" ++ key ++ U "' is missing - in case it has been specified look for typos and also check for correct capitalization."
   | Q_missing_field => U "The field '" ++ key ++ U "' is missing - in case it has been specified look for typos and also check for correct capitalization."
   | Q_missing_fieldset => U "The fieldset '" ++ key ++ U "' is missing - in case it has been specified look for typos and also check for correct capitalization."
   | Q_missing_fieldset_entry => U "The fieldset entry '" ++ key ++ U "' is missing - in case it has been specified look for typos and also check for correct capitalization."
   | Q_missing_list => U "The list '" ++ key ++ U "' is missing - in case it has been specified look for typos and also check for correct capitalization."
   | Q_missing_section => U "The section '" ++ key ++ U "' is missing - in case it has been specified look for typos and also check for correct capitalization."
   end)
  (U "Content")
  (U "Line")
  (U "A required comment for this element is missing.")
  (U "This element was not expected, make sure it is at the right place in the document and that its key is not mis-typed.")
  (U "A fieldset entry was expected.")
  (U "A list item was expected.")
  (fun message => U "There is a problem with the comment of this element: " ++ message)
  (fun message => U "There is a problem with the key of this element: " ++ message)
  (fun message => U "There is a problem with the value of this element: " ++ message)
  (fun line key => U "In line " ++ dec line ++ U " '" ++ key ++ U "' is copied into itself.")
  (fun line => U "Line " ++ dec line ++ U " does not follow any specified pattern.")
  (fun line => U "Line " ++ dec line ++ U " contains a line continuation without a continuable element being specified before.")
  (fun key => U "The field '" ++ key ++ U "' must contain a value.")
  (fun key => U "The fieldset entry '" ++ key ++ U "' must contain a value.")
  (fun key => U "The list '" ++ key ++ U "' may not contain empty items.")
  (fun line => U "Line " ++ dec line ++ U " contains a fieldset entry without a fieldset being specified before.")
  (fun line => U "Line " ++ dec line ++ U " contains a list item without a list being specified before.")
  (fun line key => U "In line " ++ dec line ++ U " the non-section element '" ++ key ++ U "' should be copied, but it was not found.")
  (fun line => U "Line " ++ dec line ++ U " starts a section that is more than one level deeper than the current one.")
  (fun line key => U "In line " ++ dec line ++ U " the section '" ++ key ++ U "' should be copied, but it was not found.")
  (fun key => U "There are at least two elements with the key '" ++ key ++ U "' that qualify for being copied here, it is not clear which to copy.")
  (fun line => U "In line " ++ dec line ++ U " the key of an element is escaped, but the escape sequence is not terminated until the end of the line.")
  (fun key line => U "The multiline field '" ++ key ++ U "' starting in line " ++ dec line ++ U " is not terminated until the end of the document.").

(** messages/de.py *)
Definition de : locale := MkLocale
  (fun q => match q with
   | Q_expected_empty => U "Ein leeres Element wurde erwartet."
   | Q_expected_field => U "Ein Feld wurde erwartet."
   | Q_expected_fields => U "Nur Felder wurden erwartet."
   | Q_expected_fieldset => U "Ein Fieldset wurde erwartet."
   | Q_expected_fieldsets => U "Nur Fieldsets wurden erwartet."
   | Q_expected_list => U "Eine Liste wurde erwartet."
   | Q_expected_lists => U "Nur Listen wurden erwartet."
   | Q_expected_section => U "Eine Sektion wurde erwartet."
   | Q_expected_sections => U "Nur Sektionen wurden erwartet."
   | Q_expected_single_element => U "Nur ein einzelnes Element wurde erwartet."
   | Q_expected_single_empty => U "Nur ein einzelnes leeres Element wurde erwartet."
   | Q_expected_single_field => U "Nur ein einzelnes Feld wurde erwartet."
   | Q_expected_single_fieldset => U "Nur ein einzelnes Fieldset wurde erwartet."
   | Q_expected_single_fieldset_entry => U "Nur ein einzelner Fieldset Eintrag wurde erwartet."
   | Q_expected_single_list => U "Nur eine einzelne Liste wurde erwartet."
   | Q_expected_single_section => U "Nur eine einzelne Sektion wurde erwartet."
   | Q_missing_element => U "Ein einzelnes Element ist erforderlich - es kann einen beliebigen Schlüssel haben."
   | Q_missing_empty => U "Ein einzelnes leeres Element ist erforderlich - es kann einen beliebigen Schlüssel haben."
   | Q_missing_field => U "Ein einzelnes Feld ist erforderlich - es kann einen beliebigen Schlüssel haben."
   | Q_missing_fieldset => U "Ein einzelnes Fieldset ist erforderlich - es kann einen beliebigen Schlüssel haben."
   | Q_missing_fieldset_entry => U "Ein einzelner Fieldset Eintrag ist erforderlich - er kann einen beliebigen Schlüssel haben."
   | Q_missing_list => U "Eine einzelne Liste ist erforderlich - sie kann einen beliebigen Schlüssel haben."
   | Q_missing_section => U "Eine einzelne Sektion ist erforderlich - sie kann einen beliebigen Schlüssel haben."
   end)
  (fun q key => match q with
   | Q_expected_empty => U "Ein leeres Element mit dem Schlüssel '" ++ key ++ U "' wurde erwartet."
   | Q_expected_field => U "Ein Feld mit dem Schlüssel '" ++ key ++ U "' wurde erwartet."
   | Q_expected_fields => U "Nur Felder mit dem Schlüssel '" ++ key ++ U "' wurden erwartet."
   | Q_expected_fieldset => U "Ein Fieldset mit dem Schlüssel '" ++ key ++ U "' wurde erwartet."
   | Q_expected_fieldsets => U "Nur Fieldsets mit dem Schlüssel '" ++ key ++ U "' wurden erwartet."
   | Q_expected_list => U "Eine Liste mit dem Schlüssel '" ++ key ++ U "' wurde erwartet."
   | Q_expected_lists => U "Nur Listen mit dem Schlüssel '" ++ key ++ U "' wurden erwartet."
   | Q_expected_section => U "Eine Sektion mit dem Schlüssel '" ++ key ++ U "' wurde erwartet."
   | Q_expected_sections => U "Nur Sektionen mit dem Schlüssel '" ++ key ++ U "' wurden erwartet."
   | Q_expected_single_element => U "Nur ein einzelnes Element mit dem Schlüssel '" ++ key ++ U "' wurde erwartet."
   | Q_expected_single_empty => U "Nur ein einzelnes leeres Element mit dem Schlüssel '" ++ key ++ U "' wurde erwartet."
   | Q_expected_single_field => U "Nur ein einzelnes Feld mit dem Schlüssel '" ++ key ++ U "' wurde erwartet."
   | Q_expected_single_fieldset => U "Nur ein einzelnes Fieldset mit dem Schlüssel '" ++ key ++ U "' wurde erwartet."
   | Q_expected_single_fieldset_entry => U "Nur ein einzelner Fieldset Eintrag mit dem Schlüssel '" ++ key ++ U "' wurde erwartet."
   | Q_expected_single_list => U "Nur eine einzelne Liste mit dem Schlüssel '" ++ key ++ U "' wurde erwartet."
   | Q_expected_single_section => U "Nur eine einzelne Sektion mit dem Schlüssel '" ++ key ++ U "' wurde erwartet."
   | Q_missing_element => U "Das Element '" ++ key ++ U "' fehlt - falls es angegeben wurde eventuell nach Tippfehlern Ausschau halten und auch die Gross/Kleinschreibung beachten."
   | Q_missing_empty => U "Das leere Element '" ++ key ++ U "' fehlt - falls es angegeben wurde eventuell nach Tippfehlern Ausschau halten und auch die Gross/Kleinschreibung beachten."
   | Q_missing_field => U "Das Feld '" ++ key ++ U "' fehlt - falls es angegeben wurde eventuell nach Tippfehlern Ausschau halten und auch die Gross/Kleinschreibung beachten."
   | Q_missing_fieldset => U "Das Fieldset '" ++ key ++ U "' fehlt - falls es angegeben wurde eventuell nach Tippfehlern Ausschau halten und auch die Gross/Kleinschreibung beachten."
   | Q_missing_fieldset_entry => U "Der Fieldset Eintrag '" ++ key ++ U "' fehlt - falls er angegeben wurde eventuell nach Tippfehlern Ausschau halten und auch die Gross/Kleinschreibung beachten."
   | Q_missing_list => U "Die Liste '" ++ key ++ U "' fehlt - falls sie angegeben wurde eventuell nach Tippfehlern Ausschau halten und auch die Gross/Kleinschreibung beachten."
   | Q_missing_section => U "Die Sektion '" ++ key ++ U "' fehlt - falls sie angegeben wurde eventuell nach Tippfehlern Ausschau halten und auch die Gross/Kleinschreibung beachten."
   end)
  (U "Inhalt")
  (U "Zeile")
  (U "Ein erforderlicher Kommentar zu diesem Feld fehlt.")
  (U "Dieses Element wurde nicht erwartet, prüfe ob es am richtigen Platz ist und dass der Schlüssel keine Tippfehler enthält.")
  (U "Ein Fieldset Eintrag wurde erwartet.")
  (U "Ein Listen Eintrag wurde erwartet.")
  (fun message => U "Es gibt ein Problem mit dem Kommentar dieses Elements: " ++ message)
  (fun message => U "Es gibt ein Problem mit dem Schlüssel dieses Elements: " ++ message)
  (fun message => U "Es gibt ein Problem mit dem Wert dieses Elements: " ++ message)
  (fun line key => U "In Zeile " ++ dec line ++ U " wird '" ++ key ++ U "' in sich selbst kopiert.")
  (fun line => U "Zeile " ++ dec line ++ U " folgt keinem spezifierten Muster.")
  (fun line => U "Zeile " ++ dec line ++ U " enthält eine Zeilenfortsetzung ohne dass davor ein fortsetzbares Element begonnen wurde.")
  (fun key => U "Das Feld '" ++ key ++ U "' muss einen Wert enthalten.")
  (fun key => U "Der Fieldset Eintrag '" ++ key ++ U "' muss einen Wert enthalten.")
  (fun key => U "Die Liste '" ++ key ++ U "' darf keine leeren Einträge enthalten.")
  (fun line => U "Zeile " ++ dec line ++ U " enthält einen Fieldset Eintrag ohne dass davor ein Fieldset begonnen wurde.")
  (fun line => U "Zeile " ++ dec line ++ U " enthält einen Listeneintrag ohne dass davor ein eine Liste begonnen wurde.")
  (fun line key => U "In Zeile " ++ dec line ++ U " soll das Nicht-Sektions Element '" ++ key ++ U "' kopiert werden, es wurde aber nicht gefunden.")
  (fun line => U "Zeile " ++ dec line ++ U " beginnt eine Sektion die mehr als eine Ebene tiefer liegt als die aktuelle.")
  (fun line key => U "In Zeile " ++ dec line ++ U " soll die Sektion '" ++ key ++ U "' kopiert werden, sie wurde aber nicht gefunden.")
  (fun key => U "Es gibt mindestens zwei Elemente mit dem Schlüssel '" ++ key ++ U "' die hier zum kopieren in Frage kommen, es ist nicht klar welches kopiert werden soll.")
  (fun line => U "In Zeile " ++ dec line ++ U " wird der Schlüssel eines Elements escaped, jedoch wird diese Escape Sequenz bis zum Ende der Zeile nicht mehr beendet.")
  (fun key line => U "Das Mehrzeilenfeld '" ++ key ++ U "' dass in Zeile " ++ dec line ++ U " beginnt wird bis zum Ende des Dokuments nicht mehr beendet.").

(** messages/es.py *)
Definition es : locale := MkLocale
  (fun q => match q with
   | Q_expected_empty => U "Se esperaba un elemento vacío."
   | Q_expected_field => U "Se esperaba una casilla."
   | Q_expected_fields => U "Solo se esperaban casillas."
   | Q_expected_fieldset => U "Se esperaba una collecíon de casillas."
   | Q_expected_fieldsets => U "Solo se esperaban colleciones de casillas."
   | Q_expected_list => U "Se esperaba una lista."
   | Q_expected_lists => U "Solo se esperaban listas."
   | Q_expected_section => U "Se esperaba una sección."
   | Q_expected_sections => U "Solo se esperaban secciones."
   | Q_expected_single_element => U "Solo se esperaba un único elemento."
   | Q_expected_single_empty => U "Solo se esperaba un único elemento vacío."
   | Q_expected_single_field => U "Solo se esperaba una sola casilla."
   | Q_expected_single_fieldset => U "Solo se esperaba una sola collecíon de casillas."
   | Q_expected_single_fieldset_entry => U "Solo se esperaba una sola casilla de collecíon."
   | Q_expected_single_list => U "Solo se esperaba una sola lista."
   | Q_expected_single_section => U "Solo se esperaba una sola sección."
   | Q_missing_element => U "Se requiere un único elemento - puede tener cualquier clave."
   | Q_missing_empty => U "Se requiere un único elemento vacío - puede tener cualquier clave."
   | Q_missing_field => U "Se requiere una sola casilla - puede tener cualquier clave."
   | Q_missing_fieldset => U "Se requiere una sola collecíon de casillas - puede tener cualquier clave."
   | Q_missing_fieldset_entry => U "Se requiere una sola casilla de collecíon - puede tener cualquier clave."
   | Q_missing_list => U "Se requiere una sola lista - puede tener cualquier clave."
   | Q_missing_section => U "Se requiere una sola sección - puede tener cualquier clave."
   end)
  (fun q key => match q with
   | Q_expected_empty => U "Se esperaba un elemento vacío con la clave '" ++ key ++ U "'."
   | Q_expected_field => U "Se esperaba una casilla con la clave '" ++ key ++ U "'."
   | Q_expected_fields => U "Solo se esperaban casillas con la clave '" ++ key ++ U "'."
   | Q_expected_fieldset => U "Se esperaba una collecíon de casillas con la clave '" ++ key ++ U "'."
   | Q_expected_fieldsets => U "Solo se esperaban colleciones de casillas con la clave '" ++ key ++ U "'."
   | Q_expected_list => U "Se esperaba una lista con la clave '" ++ key ++ U "'."
   | Q_expected_lists => U "Solo se esperaban listas con la clave '" ++ key ++ U "'."
   | Q_expected_section => U "Se esperaba una sección con la clave '" ++ key ++ U "'."
   | Q_expected_sections => U "Solo se esperaban secciones con la clave '" ++ key ++ U "'."
   | Q_expected_single_element => U "Solo se esperaba un único elemento con la clave '" ++ key ++ U "'."
   | Q_expected_single_empty => U "Solo se esperaba un único elemento vacío con la clave '" ++ key ++ U "'."
   | Q_expected_single_field => U "Solo se esperaba una sola casilla con la clave '" ++ key ++ U "'."
   | Q_expected_single_fieldset => U "Solo se esperaba una sola collecíon de casillas con la clave '" ++ key ++ U "'."
   | Q_expected_single_fieldset_entry => U "Solo se esperaba una sola casilla de collecíon con la clave '" ++ key ++ U "'."
   | Q_expected_single_list => U "Solo se esperaba una sola lista con la clave '" ++ key ++ U "'."
   | Q_expected_single_section => U "Solo se esperaba una sola sección con la clave '" ++ key ++ U "'."
   | Q_missing_element => U "Falta el elemento '" ++ key ++ U "' - si se proporcionó, mira por errores ortográficos y también distingue entre mayúsculas y minúsculas."
   | Q_missing_empty => U "Falta el elemento vacío '" ++ key ++ U "' - si se proporcionó, mira por errores ortográficos y también distingue entre mayúsculas y minúsculas."
   | Q_missing_field => U "Falta la casilla '" ++ key ++ U "' - si se proporcionó, mira por errores ortográficos y también distingue entre mayúsculas y minúsculas."
   | Q_missing_fieldset => U "Falta la collecíon de casillas '" ++ key ++ U "' - si se proporcionó, mira por errores ortográficos y también distingue entre mayúsculas y minúsculas."
   | Q_missing_fieldset_entry => U "Falta la casilla de collecíon '" ++ key ++ U "' - si se proporcionó, mira por errores ortográficos y también distingue entre mayúsculas y minúsculas."
   | Q_missing_list => U "Falta la lista '" ++ key ++ U "' - si se proporcionó, mira por errores ortográficos y también distingue entre mayúsculas y minúsculas."
   | Q_missing_section => U "Falta la sección '" ++ key ++ U "' - si se proporcionó, mira por errores ortográficos y también distingue entre mayúsculas y minúsculas."
   end)
  (U "Contenido")
  (U "Línea")
  (U "Falta un comentario necesario para este elemento.")
  (U "Este elemento no se esperaba, averigua si es en el sitio correcto y que no contiene un error tipográfico la clave.")
  (U "Se esperaba una casilla de collecíon.")
  (U "Se esperaba una entrada de lista.")
  (fun message => U "Hay un problema con el comentario de este elemento: " ++ message)
  (fun message => U "Hay un problema con la clave de este elemento: " ++ message)
  (fun message => U "Hay un problema con el valor de este elemento: " ++ message)
  (fun line key => U "En la línea " ++ dec line ++ U " '" ++ key ++ U "' se copia en sí mismo.")
  (fun line => U "Línea " ++ dec line ++ U " no sigue un patrón especificado.")
  (fun line => U "Línea " ++ dec line ++ U " contiene una continuacíon de línea sin un elemento que se puede continuar empezado antes.")
  (fun key => U "La casilla '" ++ key ++ U "' debe contener un valor.")
  (fun key => U "La casilla de collecíon '" ++ key ++ U "' debe contener un valor.")
  (fun key => U "La lista '" ++ key ++ U "' no debe contener entradas vacías.")
  (fun line => U "Línea " ++ dec line ++ U " contiene una casilla de collecíon sin una collecíon de casillas empezada antes.")
  (fun line => U "Línea " ++ dec line ++ U " contiene una entrada de lista sin una lista empezada antes.")
  (fun line key => U "En la línea " ++ dec line ++ U " debe ser copiado el elemento no sección '" ++ key ++ U "', pero no se encontró.")
  (fun line => U "Línea " ++ dec line ++ U " inicia una sección que es más de un nivel más bajo el actual.")
  (fun line key => U "En la línea " ++ dec line ++ U " debe ser copiado la sección '" ++ key ++ U "', pero no se encontró.")
  (fun key => U "Hay como mínimo dos elementos con la clave '" ++ key ++ U "' que se clasifiquen para estar copiado, no está claro cual debe ser copiado.")
  (fun line => U "En la línea " ++ dec line ++ U ", la clave de un elemento se escapa, pero esta secuencia de escape no termina hasta el final de la línea.")
  (fun key line => U "La casilla de múltiples líneas '" ++ key ++ U "' que comienza en la línea " ++ dec line ++ U " no termina hasta el final del documento.").
