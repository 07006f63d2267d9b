(** The keyword table of the tokenizer. *)
From Coq Require Import String List.
Import ListNotations.
Local Open Scope string_scope.

(** sqlparser/token.go 94-455: [keywords], each word with the name of its token. *)
Definition keywords : list (string * string) :=
  [("accessible", "UNUSED"); ("action", "ACTION"); ("add", "ADD"); ("after", "AFTER"); ("against", "AGAINST");
   ("all", "ALL"); ("alter", "ALTER"); ("always", "ALWAYS"); ("analyze", "ANALYZE"); ("and", "AND");
   ("array", "ARRAY"); ("as", "AS"); ("asc", "ASC"); ("asensitive", "UNUSED");
   ("auto_increment", "AUTO_INCREMENT"); ("autoincrement", "AUTOINCREMENT"); ("before", "BEFORE");
   ("begin", "BEGIN"); ("between", "BETWEEN"); ("bigint", "BIGINT"); ("bigserial", "BIGSERIAL");
   ("binary", "BINARY"); ("_binary", "UNDERSCORE_BINARY"); ("bit", "BIT"); ("blob", "BLOB");
   ("bool", "BOOL"); ("boolean", "BOOLEAN"); ("both", "UNUSED"); ("bpchar", "BPCHAR"); ("by", "BY");
   ("cache", "CACHE"); ("call", "UNUSED"); ("cascade", "CASCADE"); ("case", "CASE"); ("cast", "CAST");
   ("change", "UNUSED"); ("char", "CHAR"); ("character", "CHARACTER"); ("charset", "CHARSET");
   ("check", "CHECK"); ("citext", "CITEXT"); ("clustered", "CLUSTERED"); ("nonclustered", "NONCLUSTERED");
   ("collate", "COLLATE"); ("column", "COLUMN"); ("comment", "COMMENT_KEYWORD"); ("committed", "COMMITTED");
   ("commit", "COMMIT"); ("condition", "UNUSED"); ("constraint", "CONSTRAINT"); ("continue", "UNUSED");
   ("convert", "CONVERT"); ("substr", "SUBSTR"); ("substring", "SUBSTRING"); ("create", "CREATE");
   ("cross", "CROSS"); ("current_date", "CURRENT_DATE"); ("current_time", "CURRENT_TIME");
   ("current_timestamp", "CURRENT_TIMESTAMP"); ("current_user", "CURRENT_USER"); ("cursor", "UNUSED");
   ("cycle", "CYCLE"); ("database", "DATABASE"); ("databases", "DATABASES"); ("day_hour", "UNUSED");
   ("day_microsecond", "UNUSED"); ("day_minute", "UNUSED"); ("day_second", "UNUSED"); ("date", "DATE");
   ("datetime", "DATETIME"); ("datetime2", "DATETIME2"); ("datetimeoffset", "DATETIMEOFFSET");
   ("dec", "UNUSED"); ("decimal", "DECIMAL"); ("declare", "UNUSED"); ("default", "DEFAULT");
   ("delayed", "UNUSED"); ("delete", "DELETE"); ("desc", "DESC"); ("describe", "DESCRIBE");
   ("deterministic", "UNUSED"); ("distinct", "DISTINCT"); ("distinctrow", "UNUSED"); ("div", "DIV");
   ("double", "DOUBLE"); ("drop", "DROP"); ("duplicate", "DUPLICATE"); ("each", "EACH"); ("else", "ELSE");
   ("elseif", "UNUSED"); ("enclosed", "UNUSED"); ("end", "END"); ("enum", "ENUM"); ("escape", "ESCAPE");
   ("escaped", "UNUSED"); ("exists", "EXISTS"); ("exit", "UNUSED"); ("explain", "EXPLAIN");
   ("expansion", "EXPANSION"); ("extended", "EXTENDED"); ("false", "FALSE"); ("fetch", "UNUSED");
   ("float", "FLOAT_TYPE"); ("float4", "UNUSED"); ("float8", "UNUSED"); ("for", "FOR"); ("force", "FORCE");
   ("foreign", "FOREIGN"); ("from", "FROM"); ("full", "FULL"); ("fulltext", "FULLTEXT");
   ("generated", "GENERATED"); ("geometry", "GEOMETRY"); ("geometrycollection", "GEOMETRYCOLLECTION");
   ("get", "UNUSED"); ("getdate", "GETDATE"); ("global", "GLOBAL"); ("grant", "UNUSED"); ("group", "GROUP");
   ("group_concat", "GROUP_CONCAT"); ("having", "HAVING"); ("high_priority", "UNUSED");
   ("hour_microsecond", "UNUSED"); ("hour_minute", "UNUSED"); ("hour_second", "UNUSED");
   ("identity", "IDENTITY"); ("if", "IF"); ("ignore", "IGNORE"); ("in", "IN"); ("include", "INCLUDE");
   ("increment", "INCREMENT"); ("index", "INDEX"); ("infile", "UNUSED"); ("inout", "UNUSED");
   ("inner", "INNER"); ("insensitive", "UNUSED"); ("insert", "INSERT"); ("int", "INT"); ("int1", "UNUSED");
   ("int2", "UNUSED"); ("int3", "UNUSED"); ("int4", "UNUSED"); ("int8", "UNUSED"); ("integer", "INTEGER");
   ("interval", "INTERVAL"); ("into", "INTO"); ("io_after_gtids", "UNUSED"); ("is", "IS");
   ("isolation", "ISOLATION"); ("inherit", "INHERIT"); ("iterate", "UNUSED"); ("join", "JOIN");
   ("json", "JSON"); ("jsonb", "JSONB"); ("key", "KEY"); ("keys", "KEYS");
   ("key_block_size", "KEY_BLOCK_SIZE"); ("kill", "UNUSED"); ("language", "LANGUAGE");
   ("last_insert_id", "LAST_INSERT_ID"); ("leading", "UNUSED"); ("leave", "UNUSED"); ("left", "LEFT");
   ("less", "LESS"); ("level", "LEVEL"); ("like", "LIKE"); ("limit", "LIMIT"); ("linear", "UNUSED");
   ("lines", "UNUSED"); ("linestring", "LINESTRING"); ("load", "UNUSED"); ("localtime", "LOCALTIME");
   ("localtimestamp", "LOCALTIMESTAMP"); ("lock", "LOCK"); ("long", "UNUSED"); ("longblob", "LONGBLOB");
   ("longtext", "LONGTEXT"); ("loop", "UNUSED"); ("low_priority", "UNUSED"); ("master_bind", "UNUSED");
   ("match", "MATCH"); ("maxvalue", "MAXVALUE"); ("mediumblob", "MEDIUMBLOB"); ("mediumint", "MEDIUMINT");
   ("mediumtext", "MEDIUMTEXT"); ("middleint", "UNUSED"); ("minute_microsecond", "UNUSED");
   ("minute_second", "UNUSED"); ("minvalue", "MINVALUE"); ("mod", "MOD"); ("mode", "MODE");
   ("modifies", "UNUSED"); ("money", "MONEY"); ("multilinestring", "MULTILINESTRING");
   ("multipoint", "MULTIPOINT"); ("multipolygon", "MULTIPOLYGON"); ("names", "NAMES");
   ("natural", "NATURAL"); ("nchar", "NCHAR"); ("next", "NEXT"); ("no", "NO"); ("none", "NONE");
   ("not", "NOT"); ("now", "NOW"); ("no_write_to_binlog", "UNUSED"); ("ntext", "NTEXT"); ("null", "NULL");
   ("numeric", "NUMERIC"); ("nvarchar", "NVARCHAR"); ("offset", "OFFSET"); ("on", "ON"); ("only", "ONLY");
   ("optimize", "OPTIMIZE"); ("optimizer_costs", "UNUSED"); ("option", "UNUSED"); ("optionally", "UNUSED");
   ("or", "OR"); ("order", "ORDER"); ("out", "UNUSED"); ("outer", "OUTER"); ("outfile", "UNUSED");
   ("owned", "OWNED"); ("parser", "PARSER"); ("partition", "PARTITION"); ("permissive", "PERMISSIVE");
   ("point", "POINT"); ("policy", "POLICY"); ("polygon", "POLYGON"); ("precision", "PRECISION");
   ("primary", "PRIMARY"); ("processlist", "PROCESSLIST"); ("procedure", "PROCEDURE"); ("query", "QUERY");
   ("restrictive", "RESTRICTIVE"); ("range", "UNUSED"); ("read", "READ"); ("reads", "UNUSED");
   ("read_write", "UNUSED"); ("real", "REAL"); ("references", "REFERENCES"); ("regexp", "REGEXP");
   ("release", "UNUSED"); ("rename", "RENAME"); ("reorganize", "REORGANIZE"); ("repair", "REPAIR");
   ("repeat", "UNUSED"); ("repeatable", "REPEATABLE"); ("replace", "REPLACE");
   ("replication", "REPLICATION"); ("require", "UNUSED"); ("resignal", "UNUSED"); ("restrict", "RESTRICT");
   ("return", "UNUSED"); ("revoke", "UNUSED"); ("right", "RIGHT"); ("rlike", "REGEXP");
   ("rollback", "ROLLBACK"); ("row", "ROW"); ("schema", "SCHEMA"); ("schemas", "UNUSED");
   ("second_microsecond", "UNUSED"); ("select", "SELECT"); ("sensitive", "UNUSED");
   ("separator", "SEPARATOR"); ("sequence", "UNUSED"); ("serial", "SERIAL");
   ("serializable", "SERIALIZABLE"); ("session", "SESSION"); ("set", "SET"); ("share", "SHARE");
   ("show", "SHOW"); ("signal", "UNUSED"); ("signed", "SIGNED"); ("smalldatetime", "SMALLDATETIME");
   ("smallint", "SMALLINT"); ("smallmoney", "SMALLMONEY"); ("smallserial", "SMALLSERIAL");
   ("spatial", "SPATIAL"); ("specific", "UNUSED"); ("sql", "UNUSED"); ("sqlexception", "UNUSED");
   ("sqlstate", "UNUSED"); ("sqlwarning", "UNUSED"); ("sql_big_result", "UNUSED");
   ("sql_cache", "SQL_CACHE"); ("sql_calc_found_rows", "UNUSED"); ("sql_no_cache", "SQL_NO_CACHE");
   ("sql_small_result", "UNUSED"); ("ssl", "UNUSED"); ("start", "START"); ("starting", "UNUSED");
   ("status", "STATUS"); ("stored", "UNUSED"); ("straight_join", "STRAIGHT_JOIN"); ("stream", "STREAM");
   ("table", "TABLE"); ("tables", "TABLES"); ("terminated", "UNUSED"); ("text", "TEXT"); ("than", "THAN");
   ("then", "THEN"); ("time", "TIME"); ("timestamp", "TIMESTAMP"); ("tinyblob", "TINYBLOB");
   ("tinyint", "TINYINT"); ("tinytext", "TINYTEXT"); ("to", "TO"); ("trailing", "UNUSED");
   ("transaction", "TRANSACTION"); ("trigger", "TRIGGER"); ("true", "TRUE"); ("truncate", "TRUNCATE");
   ("uncommitted", "UNCOMMITTED"); ("undo", "UNUSED"); ("union", "UNION"); ("unique", "UNIQUE");
   ("unlock", "UNUSED"); ("unsigned", "UNSIGNED"); ("update", "UPDATE"); ("usage", "UNUSED"); ("use", "USE");
   ("using", "USING"); ("utc_date", "UTC_DATE"); ("utc_time", "UTC_TIME");
   ("utc_timestamp", "UTC_TIMESTAMP"); ("uuid", "UUID"); ("values", "VALUES"); ("variables", "VARIABLES");
   ("varbinary", "VARBINARY"); ("varchar", "VARCHAR"); ("varcharacter", "UNUSED"); ("varying", "VARYING");
   ("virtual", "UNUSED"); ("vindex", "VINDEX"); ("vindexes", "VINDEXES"); ("view", "VIEW");
   ("vitess_keyspaces", "VITESS_KEYSPACES"); ("vitess_shards", "VITESS_SHARDS");
   ("vitess_tablets", "VITESS_TABLETS"); ("vschema_tables", "VSCHEMA_TABLES"); ("when", "WHEN");
   ("where", "WHERE"); ("while", "UNUSED"); ("with", "WITH"); ("without", "WITHOUT"); ("write", "WRITE");
   ("xor", "UNUSED"); ("year", "YEAR"); ("year_month", "UNUSED"); ("zerofill", "ZEROFILL"); ("zone", "ZONE");
   ("::", "TYPECAST"); ("allow_page_locks", "ALLOW_PAGE_LOCKS"); ("allow_row_locks", "ALLOW_ROW_LOCKS");
   ("fillfactor", "FILLFACTOR"); ("ignore_dup_key", "IGNORE_DUP_KEY"); ("off", "OFF");
   ("pad_index", "PAD_INDEX"); ("statistics_incremental", "STATISTICS_INCREMENTAL");
   ("statistics_norecompute", "STATISTICS_NORECOMPUTE")].

(** [keywords[w]]: the keys are distinct, so the first entry is the entry. *)
Fixpoint find_keyword (l : list (string * string)) (w : string) : option string :=
  match l with
  | [] => None
  | (k, t) :: l' => if String.eqb k w then Some t else find_keyword l' w
  end.
