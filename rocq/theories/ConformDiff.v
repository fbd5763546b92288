(** The inputs and expected outputs of the project's own tests of DiffCreateTable
    (pkg/ddl/*/diff_create_table_test.go) and of those cases of diff_test.go that
    start from DDL text, evaluated in the model.  The comment text produced by the
    external simplediff package is not modelled: the comparison function given to
    the model returns no text and comment lines are removed from the expectation. *)
From Verif Require Import GoStr Token Lexer Ast Parser Diff.

Definition no_comment (a b : string) : string := "".

Definition dres_string (d : dialect) (r : dres) : res string :=
  match r with DOk l => Ok (ddl_string d l) | DNoDiff => Ok "" | DNotSupported => Err | DPanic => Panic end.

Definition diff_first_tables (d : dialect) (nv : bool) (b a : string) : res string :=
  match parse d (fun cs => cs) b, parse d (fun cs => cs) a with
  | Ok (CreateTable b :: _), Ok (CreateTable a :: _) =>
      dres_string d (diff_create_table d (fun cs => cs) no_comment nv b a)
  | _, _ => Err
  end.

Definition diff_texts (d : dialect) (b a : string) : res string :=
  match parse d (fun cs => cs) b, parse d (fun cs => cs) a with
  | Ok b, Ok a => dres_string d (diff d (fun cs => cs) no_comment (Some b) (Some a))
  | _, _ => Err
  end.


(* failure,ddl.ErrNoDifference *)
Example diff_table_Pg_1 : diff_first_tables Pg false "CREATE TABLE ""users"" (id UUID NOT NULL, group_id UUID NOT NULL REFERENCES ""groups"" (""id""), ""name"" VARCHAR(255) NOT NULL UNIQUE, description TEXT, PRIMARY KEY (""id""));" "CREATE TABLE ""users"" (id UUID NOT NULL, group_id UUID NOT NULL REFERENCES ""groups"" (""id""), ""name"" VARCHAR(255) NOT NULL UNIQUE, description TEXT, PRIMARY KEY (""id""));" = Ok "".
Proof. vm_compute. reflexivity. Qed.

(* success,ADD_COLUMN *)
Example diff_table_Pg_2 : diff_first_tables Pg false "CREATE TABLE ""users"" (id UUID NOT NULL, group_id UUID NOT NULL REFERENCES ""groups"" (""id""), ""name"" VARCHAR(255) NOT NULL UNIQUE, description TEXT, PRIMARY KEY (""id""));" "CREATE TABLE ""users"" (id UUID NOT NULL, group_id UUID NOT NULL REFERENCES ""groups"" (""id""), ""name"" VARCHAR(255) NOT NULL UNIQUE, ""age"" INTEGER DEFAULT 0 NOT NULL CHECK (""age"" >= 0), description TEXT, PRIMARY KEY (""id""));" = Ok "ALTER TABLE ""users"" ADD COLUMN ""age"" INTEGER DEFAULT 0 NOT NULL;
ALTER TABLE ""users"" ADD CONSTRAINT users_age_check CHECK (""age"" >= 0);
".
Proof. vm_compute. reflexivity. Qed.

(* success,DROP_COLUMN *)
Example diff_table_Pg_3 : diff_first_tables Pg false "CREATE TABLE ""users"" (id UUID NOT NULL, group_id UUID NOT NULL REFERENCES ""groups"" (""id""), ""name"" VARCHAR(255) NOT NULL UNIQUE, ""age"" INTEGER DEFAULT 0 NOT NULL CHECK (""age"" >= 0), description TEXT, PRIMARY KEY (""id""));" "CREATE TABLE ""users"" (id UUID NOT NULL, group_id UUID NOT NULL REFERENCES ""groups"" (""id""), ""name"" VARCHAR(255) NOT NULL, description TEXT, PRIMARY KEY (""id""));" = Ok "ALTER TABLE ""users"" DROP CONSTRAINT users_unique_name;
ALTER TABLE ""users"" DROP CONSTRAINT users_age_check;
ALTER TABLE ""users"" DROP COLUMN ""age"";
".
Proof. vm_compute. reflexivity. Qed.

(* success,ALTER_COLUMN_SET_DATA_TYPE *)
Example diff_table_Pg_4 : diff_first_tables Pg false "CREATE TABLE ""users"" (id UUID NOT NULL, group_id UUID NOT NULL REFERENCES ""groups"" (""id""), ""name"" VARCHAR(255) NOT NULL, ""age"" INT DEFAULT 0 CHECK (""age"" >= 0), description TEXT, PRIMARY KEY (""id""));" "CREATE TABLE ""users"" (id UUID NOT NULL, group_id UUID NOT NULL REFERENCES ""groups"" (""id""), ""name"" TEXT NOT NULL UNIQUE, ""age"" BIGINT DEFAULT 0 CHECK (""age"" >= 0), description TEXT, PRIMARY KEY (""id""));" = Ok "ALTER TABLE ""users"" ALTER COLUMN ""name"" SET DATA TYPE TEXT;
ALTER TABLE ""users"" ALTER COLUMN ""age"" SET DATA TYPE BIGINT;
ALTER TABLE ""users"" ADD CONSTRAINT users_unique_name UNIQUE (""name"");
".
Proof. vm_compute. reflexivity. Qed.

(* success,ALTER_COLUMN_DROP_DEFAULT *)
Example diff_table_Pg_5 : diff_first_tables Pg false "CREATE TABLE ""users"" (id UUID NOT NULL, group_id UUID NOT NULL REFERENCES ""groups"" (""id""), ""name"" VARCHAR(255) NOT NULL UNIQUE, ""age"" INT DEFAULT 0 CHECK (""age"" >= 0), description TEXT, PRIMARY KEY (""id""));" "CREATE TABLE ""users"" (id UUID NOT NULL, group_id UUID NOT NULL REFERENCES ""groups"" (""id""), ""name"" VARCHAR(255) NOT NULL UNIQUE, ""age"" INT CHECK (""age"" >= 0), description TEXT, PRIMARY KEY (""id""));" = Ok "ALTER TABLE ""users"" ALTER COLUMN ""age"" DROP DEFAULT;
".
Proof. vm_compute. reflexivity. Qed.

(* success,ALTER_COLUMN_SET_DEFAULT *)
Example diff_table_Pg_6 : diff_first_tables Pg false "CREATE TABLE ""users"" (id UUID NOT NULL, group_id UUID NOT NULL REFERENCES ""groups"" (""id""), ""name"" VARCHAR(255) NOT NULL UNIQUE, ""age"" INT CHECK (""age"" >= 0), description TEXT, PRIMARY KEY (""id""));" "CREATE TABLE ""users"" (id UUID NOT NULL, group_id UUID NOT NULL REFERENCES ""groups"" (""id""), ""name"" VARCHAR(255) NOT NULL UNIQUE, ""age"" INT DEFAULT 0 CHECK (""age"" <> 0), description TEXT, PRIMARY KEY (id));" = Ok "ALTER TABLE ""users"" ALTER COLUMN ""age"" SET DEFAULT 0;
ALTER TABLE ""users"" DROP CONSTRAINT users_age_check;
ALTER TABLE ""users"" ADD CONSTRAINT users_age_check CHECK (""age"" <> 0);
".
Proof. vm_compute. reflexivity. Qed.

(* success,ALTER_TABLE_RENAME_TO *)
Example diff_table_Pg_7 : diff_first_tables Pg false "CREATE TABLE ""public.users"" (id UUID NOT NULL, group_id UUID NOT NULL REFERENCES ""groups"" (""id""), ""name"" VARCHAR(255) NOT NULL UNIQUE, ""age"" INT DEFAULT 0 CHECK (""age"" >= 0), description TEXT, PRIMARY KEY (""id""));" "CREATE TABLE ""app_users"" (id UUID NOT NULL, group_id UUID NOT NULL REFERENCES ""groups"" (""id""), ""name"" VARCHAR(255) NOT NULL UNIQUE, ""age"" INT DEFAULT 0 CHECK (""age"" >= 0), description TEXT, PRIMARY KEY (""id""));" = Ok "ALTER TABLE ""public.users"" RENAME TO ""public.app_users"";
ALTER TABLE ""public.app_users"" DROP CONSTRAINT users_group_id_fkey;
ALTER TABLE ""public.app_users"" DROP CONSTRAINT users_unique_name;
ALTER TABLE ""public.app_users"" DROP CONSTRAINT users_age_check;
ALTER TABLE ""public.app_users"" DROP CONSTRAINT users_pkey;
ALTER TABLE ""public.app_users"" ADD CONSTRAINT app_users_group_id_fkey FOREIGN KEY (group_id) REFERENCES ""groups"" (""id"");
ALTER TABLE ""public.app_users"" ADD CONSTRAINT app_users_unique_name UNIQUE (""name"");
ALTER TABLE ""public.app_users"" ADD CONSTRAINT app_users_age_check CHECK (""age"" >= 0);
ALTER TABLE ""public.app_users"" ADD CONSTRAINT app_users_pkey PRIMARY KEY (""id"");
".
Proof. vm_compute. reflexivity. Qed.

(* success,SET_NOT_NULL *)
Example diff_table_Pg_8 : diff_first_tables Pg false "CREATE TABLE ""users"" (id UUID NOT NULL, group_id UUID NOT NULL REFERENCES ""groups"" (""id""), ""name"" VARCHAR(255) NOT NULL UNIQUE, ""age"" INT DEFAULT 0 CHECK (""age"" >= 0), description TEXT, PRIMARY KEY (""id""));" "CREATE TABLE ""users"" (id UUID NOT NULL, group_id UUID NOT NULL REFERENCES ""groups"" (""id""), ""name"" VARCHAR(255) NOT NULL UNIQUE, ""age"" INTEGER DEFAULT 0 NOT NULL CHECK (""age"" >= 0), description TEXT, PRIMARY KEY (""id""));" = Ok "ALTER TABLE ""users"" ALTER COLUMN ""age"" SET NOT NULL;
".
Proof. vm_compute. reflexivity. Qed.

(* success,DROP_NOT_NULL *)
Example diff_table_Pg_9 : diff_first_tables Pg false "CREATE TABLE ""users"" (id UUID NOT NULL, group_id UUID NOT NULL REFERENCES ""groups"" (""id""), ""name"" VARCHAR(255) NOT NULL UNIQUE, ""age"" INT DEFAULT 0 NOT NULL CHECK (""age"" >= 0), description TEXT, PRIMARY KEY (""id""));" "CREATE TABLE ""users"" (id UUID NOT NULL, group_id UUID NOT NULL REFERENCES ""groups"" (""id""), ""name"" VARCHAR(255) NOT NULL UNIQUE, ""age"" INT DEFAULT 0 CHECK (""age"" >= 0), description TEXT, PRIMARY KEY (""id""));" = Ok "ALTER TABLE ""users"" ALTER COLUMN ""age"" DROP NOT NULL;
".
Proof. vm_compute. reflexivity. Qed.

(* success,DROP_ADD_PRIMARY_KEY *)
Example diff_table_Pg_10 : diff_first_tables Pg false "CREATE TABLE ""users"" (id UUID NOT NULL, group_id UUID NOT NULL REFERENCES ""groups"" (""id""), ""name"" VARCHAR(255) NOT NULL UNIQUE, ""age"" INT DEFAULT 0 NOT NULL CHECK (""age"" >= 0), description TEXT, PRIMARY KEY (""id""));" "CREATE TABLE ""users"" (id UUID NOT NULL, group_id UUID NOT NULL REFERENCES ""groups"" (""id""), ""name"" VARCHAR(255) NOT NULL UNIQUE, ""age"" INT DEFAULT 0 NOT NULL CHECK (""age"" >= 0), description TEXT, PRIMARY KEY (""id"", name));" = Ok "ALTER TABLE ""users"" DROP CONSTRAINT users_pkey;
ALTER TABLE ""users"" ADD CONSTRAINT users_pkey PRIMARY KEY (""id"", name);
".
Proof. vm_compute. reflexivity. Qed.

(* success,DROP_ADD_FOREIGN_KEY *)
Example diff_table_Pg_11 : diff_first_tables Pg false "CREATE TABLE ""users"" (id UUID NOT NULL, group_id UUID NOT NULL, ""name"" VARCHAR(255) NOT NULL UNIQUE, ""age"" INT DEFAULT 0 NOT NULL CHECK (""age"" >= 0), description TEXT, PRIMARY KEY (""id""), CONSTRAINT users_group_id_fkey FOREIGN KEY (group_id) REFERENCES ""groups"" (""id""));" "CREATE TABLE ""users"" (id UUID NOT NULL, group_id UUID NOT NULL, ""name"" VARCHAR(255) NOT NULL UNIQUE, ""age"" INT DEFAULT 0 NOT NULL CHECK (""age"" >= 0), description TEXT, PRIMARY KEY (""id""), CONSTRAINT users_group_id_fkey FOREIGN KEY (group_id, name) REFERENCES ""groups"" (""id"", name));" = Ok "ALTER TABLE ""users"" DROP CONSTRAINT users_group_id_fkey;
ALTER TABLE ""users"" ADD CONSTRAINT users_group_id_fkey FOREIGN KEY (group_id, name) REFERENCES ""groups"" (""id"", name);
".
Proof. vm_compute. reflexivity. Qed.

(* success,DROP_ADD_UNIQUE *)
Example diff_table_Pg_12 : diff_first_tables Pg false "CREATE TABLE ""users"" (id UUID NOT NULL, group_id UUID NOT NULL, ""name"" VARCHAR(255) NOT NULL UNIQUE, ""age"" INT DEFAULT 0 NOT NULL CHECK (""age"" >= 0), description TEXT, PRIMARY KEY (""id""));" "CREATE TABLE ""users"" (id UUID NOT NULL, group_id UUID NOT NULL, ""name"" VARCHAR(255) NOT NULL UNIQUE, ""age"" INT DEFAULT 0 NOT NULL CHECK (""age"" >= 0), description TEXT, PRIMARY KEY (""id""), CONSTRAINT users_unique_name UNIQUE (""id"", name));" = Ok "ALTER TABLE ""users"" DROP CONSTRAINT users_unique_name;
ALTER TABLE ""users"" ADD CONSTRAINT users_unique_name UNIQUE (""id"", name);
".
Proof. vm_compute. reflexivity. Qed.

(* success,ALTER_COLUMN_SET_DEFAULT_OVERWRITE *)
Example diff_table_Pg_13 : diff_first_tables Pg false "CREATE TABLE ""users"" (id UUID NOT NULL, group_id UUID NOT NULL, ""name"" VARCHAR(255) NOT NULL UNIQUE, ""age"" INT DEFAULT 0 NOT NULL CHECK (""age"" >= 0), description TEXT, PRIMARY KEY (""id""));" "CREATE TABLE ""users"" (id UUID NOT NULL, group_id UUID NOT NULL, ""name"" VARCHAR(255) NOT NULL UNIQUE, ""age"" INT DEFAULT ( (0 + 3) - 1 * 4 / 2 ) NOT NULL CHECK (""age"" >= 0), description TEXT, PRIMARY KEY (""id""));" = Ok "ALTER TABLE ""users"" ALTER COLUMN ""age"" SET DEFAULT ((0 + 3) - 1 * 4 / 2);
".
Proof. vm_compute. reflexivity. Qed.

(* success,ALTER_COLUMN_SET_DEFAULT_complex *)
Example diff_table_Pg_14 : diff_first_tables Pg false "CREATE TABLE complex_defaults (
    id SERIAL PRIMARY KEY,
    created_at TIMESTAMP WITH TIME ZONE DEFAULT CURRENT_TIMESTAMP,
    updated_at TIMESTAMP WITH TIME ZONE DEFAULT CURRENT_TIMESTAMP,
    unique_code TEXT,
    status TEXT DEFAULT 'pending',
    random_number INTEGER DEFAULT FLOOR(RANDOM() * 100)::INTEGER,
    json_data JSONB DEFAULT '{}',
    calculated_value INTEGER DEFAULT (SELECT COUNT(*) FROM another_table)
);
" "CREATE TABLE complex_defaults (
    id SERIAL PRIMARY KEY,
    created_at TIMESTAMP WITH TIME ZONE DEFAULT CURRENT_TIMESTAMP,
    updated_at TIMESTAMP WITH TIME ZONE DEFAULT CURRENT_TIMESTAMP,
    unique_code TEXT DEFAULT 'CODE-' || TO_CHAR(NOW(), 'YYYYMMDDHH24MISS') || '-' || LPAD(TO_CHAR(NEXTVAL('seq_complex_default')), 5, '0'),
    status TEXT DEFAULT 'pending',
    random_number INTEGER DEFAULT FLOOR(RANDOM() * 100)::INTEGER,
    json_data JSONB DEFAULT '{}',
    calculated_value INTEGER DEFAULT (SELECT COUNT(*) FROM another_table)
);
" = Ok "ALTER TABLE complex_defaults ALTER COLUMN unique_code SET DEFAULT 'CODE-' || TO_CHAR(NOW(), 'YYYYMMDDHH24MISS') || '-' || LPAD(TO_CHAR(NEXTVAL('seq_complex_default')), 5, '0');
".
Proof. vm_compute. reflexivity. Qed.

(* success,DiffCreateTableUseAlterTableAddConstraintNotValid *)
Example diff_table_Pg_15 : diff_first_tables Pg true "CREATE TABLE ""users"" (id UUID NOT NULL, group_id UUID NOT NULL REFERENCES ""groups"" (""id""), ""name"" VARCHAR(255) NOT NULL UNIQUE, ""age"" INT DEFAULT 0, description TEXT, PRIMARY KEY (""id""));" "CREATE TABLE ""users"" (id UUID NOT NULL, group_id UUID NOT NULL REFERENCES ""groups"" (""id""), ""name"" VARCHAR(255) NOT NULL UNIQUE, ""age"" INT DEFAULT 0 CHECK (""age"" >= 0), description TEXT, PRIMARY KEY (""id""));" = Ok "ALTER TABLE ""users"" ADD CONSTRAINT users_age_check CHECK (""age"" >= 0) NOT VALID;
".
Proof. vm_compute. reflexivity. Qed.

(* success,before,Index *)
Example diff_text_Pg_1 : diff_texts Pg "" "CREATE INDEX table_name_idx_column_name ON table_name (column_name);
" = Ok "CREATE INDEX table_name_idx_column_name ON table_name (column_name);
".
Proof. vm_compute. reflexivity. Qed.

(* success,before,after,Table *)
Example diff_text_Pg_2 : diff_texts Pg "CREATE TABLE public.groups (
    id UUID NOT NULL,
);
CREATE TABLE public.users (
    user_id UUID NOT NULL,
    username VARCHAR(256) NOT NULL,
    is_verified BOOLEAN NOT NULL DEFAULT false,
    CONSTRAINT users_pkey PRIMARY KEY (user_id),
);
" "CREATE TABLE public.groups (
    id UUID NOT NULL,
);CREATE TABLE public.users (
    user_id UUID NOT NULL,
    username VARCHAR(256) NOT NULL,
    is_verified BOOLEAN NOT NULL DEFAULT false,
	description TEXT NOT NULL,
    CONSTRAINT users_pkey PRIMARY KEY (user_id),
);
" = Ok "ALTER TABLE public.users ADD COLUMN description TEXT NOT NULL;
".
Proof. vm_compute. reflexivity. Qed.

(* success,before,after,Index *)
Example diff_text_Pg_3 : diff_texts Pg "CREATE UNIQUE INDEX IF NOT EXISTS public.users_idx_by_username ON users (username);" "CREATE UNIQUE INDEX IF NOT EXISTS public.users_idx_by_username ON users (username, age);" = Ok "DROP INDEX public.users_idx_by_username;
CREATE UNIQUE INDEX IF NOT EXISTS public.users_idx_by_username ON users (username, age);
".
Proof. vm_compute. reflexivity. Qed.

(* success,VARCHAR(10)->VARCHAR(11) *)
Example diff_text_Pg_4 : diff_texts Pg "CREATE TABLE public.users ( username VARCHAR(10) NOT NULL );" "CREATE TABLE public.users ( username VARCHAR(11) NOT NULL );" = Ok "ALTER TABLE public.users ALTER COLUMN username SET DATA TYPE VARCHAR(11);
".
Proof. vm_compute. reflexivity. Qed.

(* success,SET_DEFAULT_TRUE_FALSE *)
Example diff_text_Pg_5 : diff_texts Pg "CREATE TABLE public.passwords ( user_id UUID NOT NULL, password TEXT NOT NULL, is_verified BOOLEAN NOT NULL DEFAULT false, is_expired BOOLEAN NOT NULL DEFAULT true );" "CREATE TABLE public.passwords ( user_id UUID NOT NULL, password TEXT NOT NULL, is_verified BOOLEAN NOT NULL DEFAULT FALSE, is_expired BOOLEAN NOT NULL DEFAULT TRUE );" = Ok "".
Proof. vm_compute. reflexivity. Qed.

(* failure,ddl.ErrNoDifference *)
Example diff_table_Crdb_1 : diff_first_tables Crdb false "CREATE TABLE ""users"" (id UUID NOT NULL, group_id UUID NOT NULL REFERENCES ""groups"" (""id""), ""name"" VARCHAR(255) NOT NULL UNIQUE, description TEXT, PRIMARY KEY (""id""));" "CREATE TABLE ""users"" (id UUID NOT NULL, group_id UUID NOT NULL REFERENCES ""groups"" (""id""), ""name"" VARCHAR(255) NOT NULL UNIQUE, description TEXT, PRIMARY KEY (""id""));" = Ok "".
Proof. vm_compute. reflexivity. Qed.

(* success,ADD_COLUMN *)
Example diff_table_Crdb_2 : diff_first_tables Crdb false "CREATE TABLE ""users"" (id UUID NOT NULL, group_id UUID NOT NULL REFERENCES ""groups"" (""id""), ""name"" VARCHAR(255) NOT NULL UNIQUE, description TEXT, PRIMARY KEY (""id""));" "CREATE TABLE ""users"" (id UUID NOT NULL, group_id UUID NOT NULL REFERENCES ""groups"" (""id""), ""name"" VARCHAR(255) NOT NULL UNIQUE, ""age"" INTEGER DEFAULT 0 NOT NULL CHECK (""age"" >= 0), description TEXT, PRIMARY KEY (""id""));" = Ok "ALTER TABLE ""users"" ADD COLUMN ""age"" INTEGER NOT NULL DEFAULT 0;
ALTER TABLE ""users"" ADD CONSTRAINT users_age_check CHECK (""age"" >= 0);
".
Proof. vm_compute. reflexivity. Qed.

(* success,DROP_COLUMN *)
Example diff_table_Crdb_3 : diff_first_tables Crdb false "CREATE TABLE ""users"" (id UUID NOT NULL, group_id UUID NOT NULL REFERENCES ""groups"" (""id""), ""name"" VARCHAR(255) NOT NULL UNIQUE, ""age"" INTEGER DEFAULT 0 NOT NULL CHECK (""age"" >= 0), description TEXT, PRIMARY KEY (""id""));" "CREATE TABLE ""users"" (id UUID NOT NULL, group_id UUID NOT NULL REFERENCES ""groups"" (""id""), ""name"" VARCHAR(255) NOT NULL, description TEXT, PRIMARY KEY (""id""));" = Ok "DROP INDEX users_unique_name;
ALTER TABLE ""users"" DROP CONSTRAINT users_age_check;
ALTER TABLE ""users"" DROP COLUMN ""age"";
".
Proof. vm_compute. reflexivity. Qed.

(* success,ALTER_COLUMN_SET_DATA_TYPE *)
Example diff_table_Crdb_4 : diff_first_tables Crdb false "CREATE TABLE ""users"" (id UUID NOT NULL, group_id UUID NOT NULL REFERENCES ""groups"" (""id""), ""name"" VARCHAR(255) NOT NULL, ""age"" INT DEFAULT 0 CHECK (""age"" >= 0), description TEXT, PRIMARY KEY (""id""));" "CREATE TABLE ""users"" (id UUID NOT NULL, group_id UUID NOT NULL REFERENCES ""groups"" (""id""), ""name"" TEXT NOT NULL UNIQUE, ""age"" BIGINT DEFAULT 0 CHECK (""age"" >= 0), description STRING, PRIMARY KEY (""id""));" = Ok "ALTER TABLE ""users"" ALTER COLUMN ""name"" SET DATA TYPE TEXT;
ALTER TABLE ""users"" ALTER COLUMN ""age"" SET DATA TYPE BIGINT;
CREATE UNIQUE INDEX users_unique_name ON ""users"" (""name"");
".
Proof. vm_compute. reflexivity. Qed.

(* success,ALTER_COLUMN_DROP_DEFAULT *)
Example diff_table_Crdb_5 : diff_first_tables Crdb false "CREATE TABLE ""users"" (id UUID NOT NULL, group_id UUID NOT NULL REFERENCES ""groups"" (""id""), ""name"" VARCHAR(255) NOT NULL UNIQUE, ""age"" INT DEFAULT 0 CHECK (""age"" >= 0), description TEXT, PRIMARY KEY (""id""));" "CREATE TABLE ""users"" (id UUID NOT NULL, group_id UUID NOT NULL REFERENCES ""groups"" (""id""), ""name"" VARCHAR(255) NOT NULL UNIQUE, ""age"" INT CHECK (""age"" >= 0), description TEXT, PRIMARY KEY (""id""));" = Ok "ALTER TABLE ""users"" ALTER COLUMN ""age"" DROP DEFAULT;
".
Proof. vm_compute. reflexivity. Qed.

(* success,ALTER_COLUMN_SET_DEFAULT *)
Example diff_table_Crdb_6 : diff_first_tables Crdb false "CREATE TABLE ""users"" (id UUID NOT NULL, group_id UUID NOT NULL REFERENCES ""groups"" (""id""), ""name"" VARCHAR(255) NOT NULL UNIQUE, ""age"" INT CHECK (""age"" >= 0), description TEXT, PRIMARY KEY (""id""));" "CREATE TABLE ""users"" (id UUID NOT NULL, group_id UUID NOT NULL REFERENCES ""groups"" (""id""), ""name"" VARCHAR(255) NOT NULL UNIQUE, ""age"" INT DEFAULT 0 CHECK (""age"" <> 0), description TEXT, PRIMARY KEY (id));" = Ok "ALTER TABLE ""users"" ALTER COLUMN ""age"" SET DEFAULT 0;
ALTER TABLE ""users"" DROP CONSTRAINT users_age_check;
ALTER TABLE ""users"" ADD CONSTRAINT users_age_check CHECK (""age"" <> 0);
".
Proof. vm_compute. reflexivity. Qed.

(* success,ALTER_TABLE_RENAME_TO *)
Example diff_table_Crdb_7 : diff_first_tables Crdb false "CREATE TABLE ""public.users"" (id UUID NOT NULL, group_id UUID NOT NULL REFERENCES ""groups"" (""id""), ""name"" VARCHAR(255) NOT NULL UNIQUE, ""age"" INT DEFAULT 0 CHECK (""age"" >= 0), description TEXT, PRIMARY KEY (""id""));" "CREATE TABLE ""app_users"" (id UUID NOT NULL, group_id UUID NOT NULL REFERENCES ""groups"" (""id""), ""name"" VARCHAR(255) NOT NULL UNIQUE, ""age"" INT DEFAULT 0 CHECK (""age"" >= 0), description TEXT, PRIMARY KEY (""id""));" = Ok "ALTER TABLE ""public.users"" RENAME TO ""public.app_users"";
ALTER TABLE ""public.app_users"" DROP CONSTRAINT users_pkey;
ALTER TABLE ""public.app_users"" DROP CONSTRAINT users_group_id_fkey;
DROP INDEX users_unique_name;
ALTER TABLE ""public.app_users"" DROP CONSTRAINT users_age_check;
ALTER TABLE ""public.app_users"" ADD CONSTRAINT app_users_pkey PRIMARY KEY (""id"");
ALTER TABLE ""public.app_users"" ADD CONSTRAINT app_users_group_id_fkey FOREIGN KEY (group_id) REFERENCES ""groups"" (""id"");
CREATE UNIQUE INDEX app_users_unique_name ON ""public.app_users"" (""name"");
ALTER TABLE ""public.app_users"" ADD CONSTRAINT app_users_age_check CHECK (""age"" >= 0);
".
Proof. vm_compute. reflexivity. Qed.

(* success,SET_NOT_NULL *)
Example diff_table_Crdb_8 : diff_first_tables Crdb false "CREATE TABLE ""users"" (id UUID NOT NULL, group_id UUID NOT NULL REFERENCES ""groups"" (""id""), ""name"" VARCHAR(255) NOT NULL UNIQUE, ""age"" INT DEFAULT 0 CHECK (""age"" >= 0), description TEXT, PRIMARY KEY (""id""));" "CREATE TABLE ""users"" (id UUID NOT NULL, group_id UUID NOT NULL REFERENCES ""groups"" (""id""), ""name"" VARCHAR(255) NOT NULL UNIQUE, ""age"" INTEGER DEFAULT 0 NOT NULL CHECK (""age"" >= 0), description TEXT, PRIMARY KEY (""id""));" = Ok "ALTER TABLE ""users"" ALTER COLUMN ""age"" SET NOT NULL;
".
Proof. vm_compute. reflexivity. Qed.

(* success,DROP_NOT_NULL *)
Example diff_table_Crdb_9 : diff_first_tables Crdb false "CREATE TABLE ""users"" (id UUID NOT NULL, group_id UUID NOT NULL REFERENCES ""groups"" (""id""), ""name"" VARCHAR(255) NOT NULL UNIQUE, ""age"" INT DEFAULT 0 NOT NULL CHECK (""age"" >= 0), description TEXT, PRIMARY KEY (""id""));" "CREATE TABLE ""users"" (id UUID NOT NULL, group_id UUID NOT NULL REFERENCES ""groups"" (""id""), ""name"" VARCHAR(255) NOT NULL UNIQUE, ""age"" INT DEFAULT 0 CHECK (""age"" >= 0), description TEXT, PRIMARY KEY (""id""));" = Ok "ALTER TABLE ""users"" ALTER COLUMN ""age"" DROP NOT NULL;
".
Proof. vm_compute. reflexivity. Qed.

(* success,DROP_ADD_PRIMARY_KEY *)
Example diff_table_Crdb_10 : diff_first_tables Crdb false "CREATE TABLE ""users"" (id UUID NOT NULL, group_id UUID NOT NULL REFERENCES ""groups"" (""id""), ""name"" VARCHAR(255) NOT NULL UNIQUE, ""age"" INT DEFAULT 0 NOT NULL CHECK (""age"" >= 0), description TEXT, PRIMARY KEY (""id""));" "CREATE TABLE ""users"" (id UUID NOT NULL, group_id UUID NOT NULL REFERENCES ""groups"" (""id""), ""name"" VARCHAR(255) NOT NULL UNIQUE, ""age"" INT DEFAULT 0 NOT NULL CHECK (""age"" >= 0), description TEXT, PRIMARY KEY (""id"", name));" = Ok "ALTER TABLE ""users"" DROP CONSTRAINT users_pkey;
ALTER TABLE ""users"" ADD CONSTRAINT users_pkey PRIMARY KEY (""id"", name);
".
Proof. vm_compute. reflexivity. Qed.

(* success,DROP_ADD_FOREIGN_KEY *)
Example diff_table_Crdb_11 : diff_first_tables Crdb false "CREATE TABLE ""users"" (id UUID NOT NULL, group_id UUID NOT NULL, ""name"" VARCHAR(255) NOT NULL UNIQUE, ""age"" INT DEFAULT 0 NOT NULL CHECK (""age"" >= 0), description TEXT, PRIMARY KEY (""id""), CONSTRAINT users_group_id_fkey FOREIGN KEY (group_id) REFERENCES ""groups"" (""id""));" "CREATE TABLE ""users"" (id UUID NOT NULL, group_id UUID NOT NULL, ""name"" VARCHAR(255) NOT NULL UNIQUE, ""age"" INT DEFAULT 0 NOT NULL CHECK (""age"" >= 0), description TEXT, PRIMARY KEY (""id""), CONSTRAINT users_group_id_fkey FOREIGN KEY (group_id, name) REFERENCES ""groups"" (""id"", name));" = Ok "ALTER TABLE ""users"" DROP CONSTRAINT users_group_id_fkey;
ALTER TABLE ""users"" ADD CONSTRAINT users_group_id_fkey FOREIGN KEY (group_id, name) REFERENCES ""groups"" (""id"", name);
".
Proof. vm_compute. reflexivity. Qed.

(* success,DROP_ADD_UNIQUE *)
Example diff_table_Crdb_12 : diff_first_tables Crdb false "CREATE TABLE ""users"" (id UUID NOT NULL, group_id UUID NOT NULL, ""name"" VARCHAR(255) NOT NULL UNIQUE, ""age"" INT DEFAULT 0 NOT NULL CHECK (""age"" >= 0), description TEXT, PRIMARY KEY (""id""));" "CREATE TABLE ""users"" (id UUID NOT NULL, group_id UUID NOT NULL, ""name"" VARCHAR(255) NOT NULL UNIQUE, ""age"" INT DEFAULT 0 NOT NULL CHECK (""age"" >= 0), description TEXT, PRIMARY KEY (""id""), UNIQUE INDEX users_unique_name (""id"" ASC, name ASC));" = Ok "DROP INDEX users_unique_name;
CREATE UNIQUE INDEX users_unique_name ON ""users"" (""id"" ASC, name ASC);
".
Proof. vm_compute. reflexivity. Qed.

(* success,ALTER_COLUMN_SET_DEFAULT_OVERWRITE *)
Example diff_table_Crdb_13 : diff_first_tables Crdb false "CREATE TABLE ""users"" (id UUID NOT NULL, group_id UUID NOT NULL, ""name"" VARCHAR(255) NOT NULL UNIQUE, ""age"" INT DEFAULT 0 NOT NULL CHECK (""age"" >= 0), description TEXT, PRIMARY KEY (""id""));" "CREATE TABLE ""users"" (id UUID NOT NULL, group_id UUID NOT NULL, ""name"" VARCHAR(255) NOT NULL UNIQUE, ""age"" INT DEFAULT ( (0 + 3) - 1 * 4 / 2 ) NOT NULL CHECK (""age"" >= 0), description TEXT, PRIMARY KEY (""id""));" = Ok "ALTER TABLE ""users"" ALTER COLUMN ""age"" SET DEFAULT ((0 + 3) - 1 * 4 / 2);
".
Proof. vm_compute. reflexivity. Qed.

(* success,ALTER_COLUMN_SET_DEFAULT_complex *)
Example diff_table_Crdb_14 : diff_first_tables Crdb false "CREATE TABLE complex_defaults (
    id SERIAL PRIMARY KEY,
    created_at TIMESTAMP WITH TIME ZONE DEFAULT CURRENT_TIMESTAMP,
    updated_at TIMESTAMP WITH TIME ZONE DEFAULT CURRENT_TIMESTAMP,
    unique_code TEXT,
    status TEXT DEFAULT 'pending',
    random_number INTEGER DEFAULT FLOOR(RANDOM() * 100)::INTEGER,
    json_data JSONB DEFAULT '{}',
    calculated_value INTEGER DEFAULT (SELECT COUNT(*) FROM another_table)
);
" "CREATE TABLE complex_defaults (
    id SERIAL PRIMARY KEY,
    created_at TIMESTAMP WITH TIME ZONE DEFAULT CURRENT_TIMESTAMP,
    updated_at TIMESTAMP WITH TIME ZONE DEFAULT CURRENT_TIMESTAMP,
    unique_code TEXT DEFAULT 'CODE-' || TO_CHAR(NOW(), 'YYYYMMDDHH24MISS') || '-' || LPAD(TO_CHAR(NEXTVAL('seq_complex_default')), 5, '0'),
    status TEXT DEFAULT 'pending',
    random_number INTEGER DEFAULT FLOOR(RANDOM() * 100)::INTEGER,
    json_data JSONB DEFAULT '{}',
    calculated_value INTEGER DEFAULT (SELECT COUNT(*) FROM another_table)
);
" = Ok "ALTER TABLE complex_defaults ALTER COLUMN unique_code SET DEFAULT 'CODE-' || TO_CHAR(NOW(), 'YYYYMMDDHH24MISS') || '-' || LPAD(TO_CHAR(NEXTVAL('seq_complex_default')), 5, '0');
".
Proof. vm_compute. reflexivity. Qed.

(* success,before,after,Table *)
Example diff_text_Crdb_1 : diff_texts Crdb "CREATE TABLE public.users (
    user_id UUID NOT NULL,
    username VARCHAR(256) NOT NULL,
    is_verified BOOL NOT NULL DEFAULT false,
    created_at TIMESTAMP WITH TIME ZONE NOT NULL DEFAULT timezone('UTC':::STRING, current_timestamp():::TIMESTAMPTZ),
    CONSTRAINT users_pkey PRIMARY KEY (user_id ASC),
    INDEX users_idx_by_username (username DESC)
);
" "CREATE TABLE public.users (
    user_id UUID NOT NULL,
    username VARCHAR(256) NOT NULL,
    is_verified BOOL NOT NULL DEFAULT false,
    created_at TIMESTAMP WITH TIME ZONE NOT NULL DEFAULT timezone('UTC':::STRING, current_timestamp():::TIMESTAMPTZ),
    updated_at TIMESTAMP WITH TIME ZONE NOT NULL DEFAULT timezone('UTC':::STRING, current_timestamp():::TIMESTAMPTZ),
    CONSTRAINT users_pkey PRIMARY KEY (user_id ASC),
    INDEX users_idx_by_username (username DESC)
);
" = Ok "ALTER TABLE public.users ADD COLUMN updated_at TIMESTAMP WITH TIME ZONE NOT NULL DEFAULT timezone('UTC':::STRING, current_timestamp():::TIMESTAMPTZ);
".
Proof. vm_compute. reflexivity. Qed.

(* success,before,after,Table,Asc *)
Example diff_text_Crdb_2 : diff_texts Crdb "CREATE TABLE public.users (
    user_id UUID NOT NULL,
    username VARCHAR(256) NOT NULL,
    is_verified BOOL NOT NULL DEFAULT false,
    created_at TIMESTAMPTZ NOT NULL DEFAULT timezone('UTC':::STRING, current_timestamp():::TIMESTAMPTZ),
    updated_at TIMESTAMPTZ NOT NULL DEFAULT timezone('UTC':::STRING, current_timestamp():::TIMESTAMPTZ),
    CONSTRAINT users_pkey PRIMARY KEY (user_id ASC),
    INDEX users_idx_by_username (username DESC)
);
" "CREATE TABLE public.users (
    user_id UUID NOT NULL,
    username VARCHAR(256) NOT NULL,
    is_verified BOOL NOT NULL DEFAULT false,
    created_at TIMESTAMPTZ NOT NULL DEFAULT timezone('UTC':::STRING, current_timestamp():::TIMESTAMPTZ),
    updated_at TIMESTAMPTZ NOT NULL DEFAULT timezone('UTC':::STRING, current_timestamp():::TIMESTAMPTZ),
    CONSTRAINT users_pkey PRIMARY KEY (user_id ASC),
    INDEX users_idx_by_username (username ASC)
);
" = Ok "DROP INDEX users_idx_by_username;
CREATE INDEX users_idx_by_username ON public.users (username ASC);
".
Proof. vm_compute. reflexivity. Qed.

(* success,before,after,Index *)
Example diff_text_Crdb_3 : diff_texts Crdb "CREATE UNIQUE INDEX IF NOT EXISTS public.users_idx_by_username ON users (username DESC);" "CREATE UNIQUE INDEX IF NOT EXISTS public.users_idx_by_username ON users (username ASC, age ASC);" = Ok "DROP INDEX public.users_idx_by_username;
CREATE UNIQUE INDEX IF NOT EXISTS public.users_idx_by_username ON users (username ASC, age ASC);
".
Proof. vm_compute. reflexivity. Qed.

(* success,VARCHAR(10)->VARCHAR(11) *)
Example diff_text_Crdb_4 : diff_texts Crdb "CREATE TABLE public.users ( username VARCHAR(10) NOT NULL );" "CREATE TABLE public.users ( username VARCHAR(11) NOT NULL );" = Ok "ALTER TABLE public.users ALTER COLUMN username SET DATA TYPE VARCHAR(11);
".
Proof. vm_compute. reflexivity. Qed.

(* success,SET_DEFAULT_TRUE_FALSE *)
Example diff_text_Crdb_5 : diff_texts Crdb "CREATE TABLE public.passwords ( user_id UUID NOT NULL, password TEXT NOT NULL, is_verified BOOLEAN NOT NULL DEFAULT false, is_expired BOOLEAN NOT NULL DEFAULT true );" "CREATE TABLE public.passwords ( user_id UUID NOT NULL, password TEXT NOT NULL, is_verified BOOLEAN NOT NULL DEFAULT FALSE, is_expired BOOLEAN NOT NULL DEFAULT TRUE );" = Ok "".
Proof. vm_compute. reflexivity. Qed.

(* success,ddl.ErrNoDifference *)
Example diff_table_My_1 : diff_first_tables My false "CREATE TABLE ""users"" (id VARCHAR(36) NOT NULL, group_id VARCHAR(36) NOT NULL REFERENCES ""groups"" (""id""), ""name"" VARCHAR(255) NOT NULL UNIQUE, description TEXT, PRIMARY KEY (""id"")) ENGINE=InnoDB DEFAULT CHARSET=utf8mb4 COLLATE=utf8mb4_0900_ai_ci COMMENT='user 🙆‍';" "CREATE TABLE ""users"" (id VARCHAR(36) NOT NULL, group_id VARCHAR(36) NOT NULL REFERENCES ""groups"" (""id""), ""name"" VARCHAR(255) NOT NULL UNIQUE, description TEXT, PRIMARY KEY (""id"")) ENGINE=InnoDB AUTO_INCREMENT=2 DEFAULT CHARSET=utf8mb4 COLLATE=utf8mb4_0900_ai_ci COMMENT='user 🙆‍';" = Ok "".
Proof. vm_compute. reflexivity. Qed.

(* success,Options *)
Example diff_table_My_2 : diff_first_tables My false "CREATE TABLE ""users"" (id VARCHAR(36) NOT NULL, group_id VARCHAR(36) NOT NULL REFERENCES ""groups"" (""id""), ""name"" VARCHAR(255) NOT NULL UNIQUE, description TEXT, PRIMARY KEY (""id"")) ENGINE=InnoDB AUTO_INCREMENT=2 COLLATE=utf8mb4_0900_ai_ci COMMENT='user 🙆‍';" "CREATE TABLE ""users"" (id VARCHAR(36) NOT NULL, group_id VARCHAR(36) NOT NULL REFERENCES ""groups"" (""id""), ""name"" VARCHAR(255) NOT NULL UNIQUE, description TEXT, PRIMARY KEY (""id"")) ENGINE=InnoDB AUTO_INCREMENT=2 DEFAULT CHARSET=utf8mb4 COMMENT='user 🙌';" = Ok "ALTER TABLE ""users"" COMMENT='user 🙌';
ALTER TABLE ""users"" DEFAULT CHARSET=utf8mb4;
".
Proof. vm_compute. reflexivity. Qed.

(* success,ADD_COLUMN *)
Example diff_table_My_3 : diff_first_tables My false "CREATE TABLE ""users"" (id VARCHAR(36) NOT NULL, group_id VARCHAR(36) NOT NULL REFERENCES ""groups"" (""id""), ""name"" VARCHAR(255) NOT NULL UNIQUE, description TEXT, PRIMARY KEY (""id""));" "CREATE TABLE ""users"" (id VARCHAR(36) NOT NULL, group_id VARCHAR(36) NOT NULL REFERENCES ""groups"" (""id""), ""name"" VARCHAR(255) NOT NULL UNIQUE, ""age"" INTEGER DEFAULT 0 NOT NULL CHECK (""age"" >= 0), description TEXT, PRIMARY KEY (""id""));" = Ok "ALTER TABLE ""users"" ADD COLUMN ""age"" INTEGER NOT NULL DEFAULT 0;
ALTER TABLE ""users"" ADD CONSTRAINT users_age_check CHECK (""age"" >= 0);
".
Proof. vm_compute. reflexivity. Qed.

(* success,DROP_COLUMN *)
Example diff_table_My_4 : diff_first_tables My false "CREATE TABLE ""users"" (id VARCHAR(36) NOT NULL, group_id VARCHAR(36) NOT NULL REFERENCES ""groups"" (""id""), ""name"" VARCHAR(255) NOT NULL UNIQUE, ""age"" INTEGER DEFAULT 0 NOT NULL CHECK (""age"" >= 0), description TEXT, PRIMARY KEY (""id""));" "CREATE TABLE ""users"" (id VARCHAR(36) NOT NULL, group_id VARCHAR(36) NOT NULL REFERENCES ""groups"" (""id""), ""name"" VARCHAR(255) NOT NULL, description TEXT, PRIMARY KEY (""id""));" = Ok "DROP INDEX users_unique_name;
ALTER TABLE ""users"" DROP CONSTRAINT users_age_check;
ALTER TABLE ""users"" DROP COLUMN ""age"";
".
Proof. vm_compute. reflexivity. Qed.

(* success,ALTER_COLUMN_SET_DATA_TYPE *)
Example diff_table_My_5 : diff_first_tables My false "CREATE TABLE ""users"" (id VARCHAR(36) NOT NULL, group_id VARCHAR(36) NOT NULL REFERENCES ""groups"" (""id""), ""name"" VARCHAR(255) NOT NULL, ""age"" INT DEFAULT 0 CHECK (""age"" >= 0), description TEXT, PRIMARY KEY (""id""));" "CREATE TABLE ""users"" (id VARCHAR(36) NOT NULL, group_id VARCHAR(36) NOT NULL REFERENCES ""groups"" (""id""), ""name"" TEXT NOT NULL UNIQUE, ""age"" BIGINT DEFAULT 0 CHECK (""age"" >= 0), description TEXT, PRIMARY KEY (""id""));" = Ok "ALTER TABLE ""users"" MODIFY ""name"" TEXT NOT NULL;
ALTER TABLE ""users"" MODIFY ""age"" BIGINT NULL DEFAULT 0;
CREATE UNIQUE INDEX users_unique_name ON ""users"" (""name"");
".
Proof. vm_compute. reflexivity. Qed.

(* success,ALTER_COLUMN_DROP_DEFAULT *)
Example diff_table_My_6 : diff_first_tables My false "CREATE TABLE ""users"" (id VARCHAR(36) NOT NULL, group_id VARCHAR(36) NOT NULL REFERENCES ""groups"" (""id""), ""name"" VARCHAR(255) NOT NULL UNIQUE, ""age"" INT DEFAULT 0 CHECK (""age"" >= 0), description TEXT, PRIMARY KEY (""id""));" "CREATE TABLE ""users"" (id VARCHAR(36) NOT NULL, group_id VARCHAR(36) NOT NULL REFERENCES ""groups"" (""id""), ""name"" VARCHAR(255) NOT NULL UNIQUE, ""age"" INT CHECK (""age"" >= 0), description TEXT, PRIMARY KEY (""id""));" = Ok "ALTER TABLE ""users"" ALTER ""age"" DROP DEFAULT;
".
Proof. vm_compute. reflexivity. Qed.

(* success,ALTER_COLUMN_SET_DEFAULT *)
Example diff_table_My_7 : diff_first_tables My false "CREATE TABLE ""users"" (id VARCHAR(36) NOT NULL, group_id VARCHAR(36) NOT NULL REFERENCES ""groups"" (""id""), ""name"" VARCHAR(255) NOT NULL UNIQUE, ""age"" INT CHECK (""age"" >= 0), description TEXT, PRIMARY KEY (""id""));" "CREATE TABLE ""users"" (id VARCHAR(36) NOT NULL, group_id VARCHAR(36) NOT NULL REFERENCES ""groups"" (""id""), ""name"" VARCHAR(255) NOT NULL UNIQUE, ""age"" INT DEFAULT 0 CHECK (""age"" <> 0), description TEXT, PRIMARY KEY (id));" = Ok "ALTER TABLE ""users"" MODIFY ""age"" INT NULL DEFAULT 0;
ALTER TABLE ""users"" DROP CONSTRAINT users_age_check;
ALTER TABLE ""users"" ADD CONSTRAINT users_age_check CHECK (""age"" <> 0);
".
Proof. vm_compute. reflexivity. Qed.

(* success,ALTER_TABLE_RENAME_TO *)
Example diff_table_My_8 : diff_first_tables My false "CREATE TABLE ""public.users"" (id VARCHAR(36) NOT NULL, group_id VARCHAR(36) NOT NULL REFERENCES ""groups"" (""id""), ""name"" VARCHAR(255) NOT NULL UNIQUE, ""age"" INT DEFAULT 0 CHECK (""age"" >= 0), description TEXT, PRIMARY KEY (""id""));" "CREATE TABLE ""app_users"" (id VARCHAR(36) NOT NULL, group_id VARCHAR(36) NOT NULL REFERENCES ""groups"" (""id""), ""name"" VARCHAR(255) NOT NULL UNIQUE, ""age"" INT DEFAULT 0 CHECK (""age"" >= 0), description TEXT, PRIMARY KEY (""id""));" = Ok "ALTER TABLE ""public.users"" RENAME TO ""public.app_users"";
ALTER TABLE ""public.app_users"" DROP CONSTRAINT users_group_id_fkey;
DROP INDEX public.users_unique_name;
ALTER TABLE ""public.app_users"" DROP CONSTRAINT users_age_check;
ALTER TABLE ""public.app_users"" ADD CONSTRAINT app_users_group_id_fkey FOREIGN KEY (group_id) REFERENCES ""groups"" (""id"");
CREATE UNIQUE INDEX public.app_users_unique_name ON ""public.app_users"" (""name"");
ALTER TABLE ""public.app_users"" ADD CONSTRAINT app_users_age_check CHECK (""age"" >= 0);
".
Proof. vm_compute. reflexivity. Qed.

(* success,SET_NOT_NULL *)
Example diff_table_My_9 : diff_first_tables My false "CREATE TABLE ""users"" (id VARCHAR(36) NOT NULL, group_id VARCHAR(36) NOT NULL REFERENCES ""groups"" (""id""), ""name"" VARCHAR(255) NOT NULL UNIQUE, ""age"" INT DEFAULT 0 CHECK (""age"" >= 0), description TEXT, PRIMARY KEY (""id""));" "CREATE TABLE ""users"" (id VARCHAR(36) NOT NULL, group_id VARCHAR(36) NOT NULL REFERENCES ""groups"" (""id""), ""name"" VARCHAR(255) NOT NULL UNIQUE, ""age"" INTEGER DEFAULT 0 NOT NULL CHECK (""age"" >= 0), description TEXT, PRIMARY KEY (""id""));" = Ok "ALTER TABLE ""users"" MODIFY ""age"" INTEGER NOT NULL DEFAULT 0;
".
Proof. vm_compute. reflexivity. Qed.

(* success,DROP_NOT_NULL *)
Example diff_table_My_10 : diff_first_tables My false "CREATE TABLE ""users"" (id VARCHAR(36) NOT NULL, group_id VARCHAR(36) NOT NULL REFERENCES ""groups"" (""id""), ""name"" VARCHAR(255) NOT NULL UNIQUE, ""age"" INT DEFAULT 0 NOT NULL CHECK (""age"" >= 0), description TEXT, PRIMARY KEY (""id""));" "CREATE TABLE ""users"" (id VARCHAR(36) NOT NULL, group_id VARCHAR(36) NOT NULL REFERENCES ""groups"" (""id""), ""name"" VARCHAR(255) NOT NULL UNIQUE, ""age"" INT DEFAULT 0 CHECK (""age"" >= 0), description TEXT, PRIMARY KEY (""id""));" = Ok "ALTER TABLE ""users"" MODIFY ""age"" INT NULL DEFAULT 0;
".
Proof. vm_compute. reflexivity. Qed.

(* success,DROP_ADD_PRIMARY_KEY *)
Example diff_table_My_11 : diff_first_tables My false "CREATE TABLE ""users"" (id VARCHAR(36) NOT NULL, group_id VARCHAR(36) NOT NULL REFERENCES ""groups"" (""id""), ""name"" VARCHAR(255) NOT NULL UNIQUE, ""age"" INT DEFAULT 0 NOT NULL CHECK (""age"" >= 0), description TEXT, PRIMARY KEY (""id""));" "CREATE TABLE ""users"" (id VARCHAR(36) NOT NULL, group_id VARCHAR(36) NOT NULL REFERENCES ""groups"" (""id""), ""name"" VARCHAR(255) NOT NULL UNIQUE, ""age"" INT DEFAULT 0 NOT NULL CHECK (""age"" >= 0), description TEXT, PRIMARY KEY (""id"", name));" = Ok "ALTER TABLE ""users"" DROP PRIMARY KEY;
ALTER TABLE ""users"" ADD PRIMARY KEY (""id"", name);
".
Proof. vm_compute. reflexivity. Qed.

(* success,DROP_ADD_FOREIGN_KEY *)
Example diff_table_My_12 : diff_first_tables My false "CREATE TABLE ""users"" (id VARCHAR(36) NOT NULL, group_id VARCHAR(36) NOT NULL, ""name"" VARCHAR(255) NOT NULL UNIQUE, ""age"" INT DEFAULT 0 NOT NULL CHECK (""age"" >= 0), description TEXT, PRIMARY KEY (""id""), CONSTRAINT users_group_id_fkey FOREIGN KEY (group_id) REFERENCES ""groups"" (""id""));" "CREATE TABLE ""users"" (id VARCHAR(36) NOT NULL, group_id VARCHAR(36) NOT NULL, ""name"" VARCHAR(255) NOT NULL UNIQUE, ""age"" INT DEFAULT 0 NOT NULL CHECK (""age"" >= 0), description TEXT, PRIMARY KEY (""id""), CONSTRAINT users_group_id_fkey FOREIGN KEY (group_id, name) REFERENCES ""groups"" (""id"", name));" = Ok "ALTER TABLE ""users"" DROP CONSTRAINT users_group_id_fkey;
ALTER TABLE ""users"" ADD CONSTRAINT users_group_id_fkey FOREIGN KEY (group_id, name) REFERENCES ""groups"" (""id"", name);
".
Proof. vm_compute. reflexivity. Qed.

(* success,DROP_ADD_UNIQUE *)
Example diff_table_My_13 : diff_first_tables My false "CREATE TABLE ""users"" (id VARCHAR(36) NOT NULL, group_id VARCHAR(36) NOT NULL, ""name"" VARCHAR(255) NOT NULL UNIQUE, ""age"" INT DEFAULT 0 NOT NULL CHECK (""age"" >= 0), description TEXT, PRIMARY KEY (""id""));" "CREATE TABLE ""users"" (id VARCHAR(36) NOT NULL, group_id VARCHAR(36) NOT NULL, ""name"" VARCHAR(255) NOT NULL UNIQUE, ""age"" INT DEFAULT 0 NOT NULL CHECK (""age"" >= 0), description TEXT, PRIMARY KEY (""id""), UNIQUE KEY users_unique_name (""id"", name));" = Ok "DROP INDEX users_unique_name;
CREATE UNIQUE INDEX users_unique_name ON ""users"" (""id"", name);
".
Proof. vm_compute. reflexivity. Qed.

(* success,ALTER_COLUMN_SET_DEFAULT_OVERWRITE *)
Example diff_table_My_14 : diff_first_tables My false "CREATE TABLE ""users"" (id VARCHAR(36) NOT NULL, group_id VARCHAR(36) NOT NULL, ""name"" VARCHAR(255) NOT NULL UNIQUE, ""age"" INT DEFAULT 0 NOT NULL CHECK (""age"" >= 0), description TEXT, PRIMARY KEY (""id""));" "CREATE TABLE ""users"" (id VARCHAR(36) NOT NULL, group_id VARCHAR(36) NOT NULL, ""name"" VARCHAR(255) NOT NULL UNIQUE, ""age"" INT DEFAULT ( (0 + 3) - 1 * 4 / 2 ) NOT NULL CHECK (""age"" >= 0), description TEXT, PRIMARY KEY (""id""));" = Ok "ALTER TABLE ""users"" MODIFY ""age"" INT NOT NULL DEFAULT ((0 + 3) - 1 * 4 / 2);
".
Proof. vm_compute. reflexivity. Qed.

(* success,before,after,Table *)
Example diff_text_My_1 : diff_texts My "CREATE TABLE public.users (
    user_id VARCHAR(36) NOT NULL,
    username VARCHAR(256) NOT NULL,
    is_verified BOOLEAN NOT NULL DEFAULT false,
    created_at DATETIME NOT NULL DEFAULT CURRENT_TIMESTAMP,
    CONSTRAINT users_pkey PRIMARY KEY (user_id ASC),
    INDEX users_idx_by_username (username DESC)
);
" "CREATE TABLE public.users (
    user_id VARCHAR(36) NOT NULL,
    username VARCHAR(256) NOT NULL,
    is_verified BOOLEAN NOT NULL DEFAULT false,
    created_at DATETIME NOT NULL DEFAULT CURRENT_TIMESTAMP,
    updated_at DATETIME NOT NULL DEFAULT CURRENT_TIMESTAMP,
    CONSTRAINT users_pkey PRIMARY KEY (user_id ASC),
    INDEX users_idx_by_username (username DESC)
);
" = Ok "ALTER TABLE public.users ADD COLUMN updated_at DATETIME NOT NULL DEFAULT CURRENT_TIMESTAMP;
".
Proof. vm_compute. reflexivity. Qed.

(* success,before,after,Table,Asc *)
Example diff_text_My_2 : diff_texts My "CREATE TABLE public.users (
    user_id VARCHAR(36) NOT NULL,
    username VARCHAR(256) NOT NULL,
    is_verified BOOLEAN NOT NULL DEFAULT false,
    created_at DATETIME NOT NULL DEFAULT CURRENT_TIMESTAMP,
    updated_at DATETIME NOT NULL DEFAULT CURRENT_TIMESTAMP,
    CONSTRAINT users_pkey PRIMARY KEY (user_id ASC),
    INDEX users_idx_by_username (username ASC)
);
" "CREATE TABLE public.users (
    user_id VARCHAR(36) NOT NULL,
    username VARCHAR(256) NOT NULL,
    is_verified BOOLEAN NOT NULL DEFAULT false,
    created_at DATETIME NOT NULL DEFAULT CURRENT_TIMESTAMP,
    updated_at DATETIME NOT NULL DEFAULT CURRENT_TIMESTAMP,
    CONSTRAINT users_pkey PRIMARY KEY (user_id ASC),
    INDEX users_idx_by_username (username DESC)
);
" = Ok "DROP INDEX public.users_idx_by_username;
CREATE INDEX public.users_idx_by_username ON public.users (username DESC);
".
Proof. vm_compute. reflexivity. Qed.

(* success,before,after,Index *)
Example diff_text_My_3 : diff_texts My "CREATE UNIQUE INDEX IF NOT EXISTS public.users_idx_by_username ON public.users (username DESC);" "CREATE UNIQUE INDEX IF NOT EXISTS public.users_idx_by_username ON public.users (username ASC, age ASC);" = Ok "DROP INDEX public.users_idx_by_username;
CREATE UNIQUE INDEX IF NOT EXISTS public.users_idx_by_username ON public.users (username, age);
".
Proof. vm_compute. reflexivity. Qed.

(* success,VARCHAR(10)->VARCHAR(11) *)
Example diff_text_My_4 : diff_texts My "CREATE TABLE public.users ( username VARCHAR(10) NOT NULL );" "CREATE TABLE public.users ( username VARCHAR(11) NOT NULL );" = Ok "ALTER TABLE public.users MODIFY username VARCHAR(11) NOT NULL;
".
Proof. vm_compute. reflexivity. Qed.

(* success,SET_DEFAULT_TRUE_FALSE *)
Example diff_text_My_5 : diff_texts My "CREATE TABLE public.passwords ( user_id VARCHAR(36) NOT NULL, password TEXT NOT NULL, is_verified BOOLEAN NOT NULL DEFAULT false, is_expired BOOLEAN NOT NULL DEFAULT true );" "CREATE TABLE public.passwords ( user_id VARCHAR(36) NOT NULL, password TEXT NOT NULL, is_verified BOOLEAN NOT NULL DEFAULT FALSE, is_expired BOOLEAN NOT NULL DEFAULT TRUE );" = Ok "".
Proof. vm_compute. reflexivity. Qed.

(* success,AUTO_INCREMENT *)
Example diff_text_My_6 : diff_texts My "CREATE TABLE users ( user_id BIGINT(36) NOT NULL, PRIMARY KEY (user_id) );" "CREATE TABLE users ( user_id BIGINT(36) NOT NULL AUTO_INCREMENT, PRIMARY KEY (user_id) );" = Ok "ALTER TABLE users MODIFY user_id BIGINT(36) NOT NULL AUTO_INCREMENT;
".
Proof. vm_compute. reflexivity. Qed.

(* failure,ddl.ErrNoDifference *)
Example diff_table_Sp_1 : diff_first_tables Sp false "CREATE TABLE ""users"" (id STRING(36) NOT NULL, group_id STRING(36) NOT NULL, ""name"" STRING(255) NOT NULL, description STRING, CONSTRAINT users_group_id_fkey FOREIGN KEY (group_id) REFERENCES ""groups"" (""id"")) PRIMARY KEY (""id"");" "CREATE TABLE ""users"" (id STRING(36) NOT NULL, group_id STRING(36) NOT NULL, ""name"" STRING(255) NOT NULL, description STRING, CONSTRAINT users_group_id_fkey FOREIGN KEY (group_id) REFERENCES ""groups"" (""id"")) PRIMARY KEY (""id"");" = Ok "".
Proof. vm_compute. reflexivity. Qed.

(* failure,ddl.ErrNoDifference,SameContent *)
Example diff_table_Sp_2 : diff_first_tables Sp false "CREATE TABLE ""users"" (id STRING(36) NOT NULL, group_id STRING(36) NOT NULL, ""name"" STRING(255) NOT NULL, description STRING, CONSTRAINT users_group_id_fkey FOREIGN KEY (group_id) REFERENCES ""groups"" (""id"")) PRIMARY KEY (""id"");" "CREATE TABLE users (id STRING(36) NOT NULL, group_id STRING(36) NOT NULL, name STRING(255) NOT NULL, description STRING, CONSTRAINT users_group_id_fkey FOREIGN KEY (group_id) REFERENCES groups (id)) PRIMARY KEY (id);" = Ok "".
Proof. vm_compute. reflexivity. Qed.

(* success,ADD_COLUMN *)
Example diff_table_Sp_3 : diff_first_tables Sp false "CREATE TABLE ""users"" (id STRING(36) NOT NULL, group_id STRING(36) NOT NULL, ""name"" STRING(255) NOT NULL, description STRING, CONSTRAINT users_group_id_fkey FOREIGN KEY (group_id) REFERENCES ""groups"" (""id"")) PRIMARY KEY (""id"");" "CREATE TABLE ""users"" (id STRING(36) NOT NULL, group_id STRING(36) NOT NULL, ""name"" STRING(255) NOT NULL, ""age"" INT64 DEFAULT 0 NOT NULL CHECK (""age"" >= 0), description STRING, CONSTRAINT users_group_id_fkey FOREIGN KEY (group_id) REFERENCES ""groups"" (""id"")) PRIMARY KEY (""id"");" = Ok "ALTER TABLE ""users"" ADD COLUMN ""age"" INT64 NOT NULL DEFAULT 0;
ALTER TABLE ""users"" ADD CONSTRAINT users_age_check CHECK (""age"" >= 0);
".
Proof. vm_compute. reflexivity. Qed.

(* success,DROP_COLUMN *)
Example diff_table_Sp_4 : diff_first_tables Sp false "CREATE TABLE ""users"" (id STRING(36) NOT NULL, group_id STRING(36) NOT NULL REFERENCES ""groups"" (""id""), ""name"" STRING(255) NOT NULL, ""age"" INT64 DEFAULT 0 NOT NULL CHECK (""age"" >= 0), description STRING) PRIMARY KEY (""id"");" "CREATE TABLE ""users"" (id STRING(36) NOT NULL, group_id STRING(36) NOT NULL REFERENCES ""groups"" (""id""), ""name"" STRING(255) NOT NULL, description STRING) PRIMARY KEY (""id"");" = Ok "ALTER TABLE ""users"" DROP CONSTRAINT users_age_check;
ALTER TABLE ""users"" DROP COLUMN ""age"";
".
Proof. vm_compute. reflexivity. Qed.

(* success,ALTER_COLUMN_SET_DATA_TYPE *)
Example diff_table_Sp_5 : diff_first_tables Sp false "CREATE TABLE ""users"" (id STRING(36) NOT NULL, group_id STRING(36) NOT NULL REFERENCES ""groups"" (""id""), ""name"" STRING(255) NOT NULL, ""age"" INT64 DEFAULT 0 CHECK (""age"" >= 0), description STRING) PRIMARY KEY (""id"");" "CREATE TABLE ""users"" (id STRING(36) NOT NULL, group_id STRING(36) NOT NULL REFERENCES ""groups"" (""id""), ""name"" STRING NOT NULL, ""age"" INT64 DEFAULT 0 CHECK (""age"" >= 0), description STRING) PRIMARY KEY (""id"");" = Ok "ALTER TABLE ""users"" ALTER COLUMN ""name"" STRING NOT NULL;
".
Proof. vm_compute. reflexivity. Qed.

(* success,ALTER_COLUMN_DROP_DEFAULT *)
Example diff_table_Sp_6 : diff_first_tables Sp false "CREATE TABLE ""users"" (id STRING(36) NOT NULL, group_id STRING(36) NOT NULL, ""name"" STRING(255) NOT NULL, ""age"" INT64 DEFAULT 0 CHECK (""age"" >= 0), description STRING, CONSTRAINT users_group_id_fkey FOREIGN KEY (group_id) REFERENCES ""groups"" (""id"")) PRIMARY KEY (""id"");" "CREATE TABLE ""users"" (id STRING(36) NOT NULL, group_id STRING(36) NOT NULL, ""name"" STRING(255) NOT NULL, ""age"" INT64 CHECK (""age"" >= 0), description STRING, CONSTRAINT users_group_id_fkey FOREIGN KEY (group_id) REFERENCES ""groups"" (""id"")) PRIMARY KEY (""id"");" = Ok "ALTER TABLE ""users"" ALTER COLUMN ""age"" DROP DEFAULT;
".
Proof. vm_compute. reflexivity. Qed.

(* success,ALTER_COLUMN_SET_DEFAULT *)
Example diff_table_Sp_7 : diff_first_tables Sp false "CREATE TABLE ""users"" (id STRING(36) NOT NULL, group_id STRING(36) NOT NULL, ""name"" STRING(255) NOT NULL, ""age"" INT64 CHECK (""age"" >= 0), description STRING, CONSTRAINT users_group_id_fkey FOREIGN KEY (group_id) REFERENCES ""groups"" (""id"")) PRIMARY KEY (""id"");" "CREATE TABLE ""users"" (id STRING(36) NOT NULL, group_id STRING(36) NOT NULL, ""name"" STRING(255) NOT NULL, ""age"" INT64 DEFAULT 0 CHECK (""age"" <> 0), description STRING, CONSTRAINT users_group_id_fkey FOREIGN KEY (group_id) REFERENCES ""groups"" (""id"")) PRIMARY KEY (id);" = Ok "ALTER TABLE ""users"" ALTER COLUMN ""age"" SET DEFAULT 0;
ALTER TABLE ""users"" DROP CONSTRAINT users_age_check;
ALTER TABLE ""users"" ADD CONSTRAINT users_age_check CHECK (""age"" <> 0);
".
Proof. vm_compute. reflexivity. Qed.

(* success,ALTER_TABLE_RENAME_TO *)
Example diff_table_Sp_8 : diff_first_tables Sp false "CREATE TABLE ""public.users"" (id STRING(36) NOT NULL, group_id STRING(36) NOT NULL REFERENCES ""groups"" (""id""), ""name"" STRING(255) NOT NULL, ""age"" INT64 DEFAULT 0 CHECK (""age"" >= 0), description STRING) PRIMARY KEY (""id"");" "CREATE TABLE ""app_users"" (id STRING(36) NOT NULL, group_id STRING(36) NOT NULL REFERENCES ""groups"" (""id""), ""name"" STRING(255) NOT NULL, ""age"" INT64 DEFAULT 0 CHECK (""age"" >= 0), description STRING) PRIMARY KEY (""id"");" = Ok "ALTER TABLE ""public.users"" RENAME TO ""public.app_users"";
ALTER TABLE ""public.app_users"" DROP CONSTRAINT users_group_id_fkey;
ALTER TABLE ""public.app_users"" DROP CONSTRAINT users_age_check;
ALTER TABLE ""public.app_users"" ADD CONSTRAINT app_users_group_id_fkey FOREIGN KEY (group_id) REFERENCES ""groups"" (""id"");
ALTER TABLE ""public.app_users"" ADD CONSTRAINT app_users_age_check CHECK (""age"" >= 0);
".
Proof. vm_compute. reflexivity. Qed.

(* success,SET_NOT_NULL *)
Example diff_table_Sp_9 : diff_first_tables Sp false "CREATE TABLE ""users"" (id STRING(36) NOT NULL, group_id STRING(36) NOT NULL REFERENCES ""groups"" (""id""), ""name"" STRING(255) NOT NULL, ""age"" INT64 DEFAULT 0 CHECK (""age"" >= 0), description STRING) PRIMARY KEY (""id"");" "CREATE TABLE ""users"" (id STRING(36) NOT NULL, group_id STRING(36) NOT NULL REFERENCES ""groups"" (""id""), ""name"" STRING(255) NOT NULL, ""age"" INT64 DEFAULT 0 NOT NULL CHECK (""age"" >= 0), description STRING) PRIMARY KEY (""id"");" = Ok "ALTER TABLE ""users"" ALTER COLUMN ""age"" INT64 NOT NULL;
".
Proof. vm_compute. reflexivity. Qed.

(* success,DROP_NOT_NULL *)
Example diff_table_Sp_10 : diff_first_tables Sp false "CREATE TABLE ""users"" (id STRING(36) NOT NULL, group_id STRING(36) NOT NULL REFERENCES ""groups"" (""id""), ""name"" STRING(255) NOT NULL, ""age"" INT64 DEFAULT 0 NOT NULL CHECK (""age"" >= 0), description STRING) PRIMARY KEY (""id"");" "CREATE TABLE ""users"" (id STRING(36) NOT NULL, group_id STRING(36) NOT NULL REFERENCES ""groups"" (""id""), ""name"" STRING(255) NOT NULL, ""age"" INT64 DEFAULT 0 CHECK (""age"" >= 0), description STRING) PRIMARY KEY (""id"");" = Ok "ALTER TABLE ""users"" ALTER COLUMN ""age"" INT64;
".
Proof. vm_compute. reflexivity. Qed.

(* success,ALTER_PRIMARY_KEY *)
Example diff_table_Sp_11 : diff_first_tables Sp false "CREATE TABLE ""users"" (id STRING(36) NOT NULL, group_id STRING(36) NOT NULL REFERENCES ""groups"" (""id""), ""name"" STRING(255) NOT NULL, ""age"" INT64 DEFAULT 0 NOT NULL CHECK (""age"" >= 0), description STRING) PRIMARY KEY (""id"");" "CREATE TABLE ""users"" (id STRING(36) NOT NULL, group_id STRING(36) NOT NULL REFERENCES ""groups"" (""id""), ""name"" STRING(255) NOT NULL, ""age"" INT64 DEFAULT 0 NOT NULL CHECK (""age"" >= 0), description STRING) PRIMARY KEY (""id"", name);" = Ok "DROP TABLE ""users"";
CREATE TABLE ""users"" (
    id STRING(36) NOT NULL,
    group_id STRING(36) NOT NULL,
    ""name"" STRING(255) NOT NULL,
    ""age"" INT64 NOT NULL DEFAULT 0,
    description STRING,
    CONSTRAINT users_group_id_fkey FOREIGN KEY (group_id) REFERENCES ""groups"" (""id""),
    CONSTRAINT users_age_check CHECK (""age"" >= 0)
) PRIMARY KEY (""id"", name);
".
Proof. vm_compute. reflexivity. Qed.

(* success,ALTER_ADD_ROW_DELETION_POLICY *)
Example diff_table_Sp_12 : diff_first_tables Sp false "CREATE TABLE ""users"" (id STRING(36) NOT NULL, group_id STRING(36) NOT NULL REFERENCES ""groups"" (""id""), ""name"" STRING(255) NOT NULL, ""age"" INT64 DEFAULT 0 NOT NULL CHECK (""age"" >= 0), description STRING, CreatedAt TIMESTAMP) PRIMARY KEY (""id"");" "CREATE TABLE ""users"" (id STRING(36) NOT NULL, group_id STRING(36) NOT NULL REFERENCES ""groups"" (""id""), ""name"" STRING(255) NOT NULL, ""age"" INT64 DEFAULT 0 NOT NULL CHECK (""age"" >= 0), description STRING, CreatedAt TIMESTAMP) PRIMARY KEY (""id""), ROW DELETION POLICY (OLDER_THAN(CreatedAt, INTERVAL 7 DAY));" = Ok "ALTER TABLE ""users"" ADD ROW DELETION POLICY (OLDER_THAN(CreatedAt, INTERVAL 7 DAY));
".
Proof. vm_compute. reflexivity. Qed.

(* success,ALTER_REPLACE_ROW_DELETION_POLICY *)
Example diff_table_Sp_13 : diff_first_tables Sp false "CREATE TABLE ""users"" (id STRING(36) NOT NULL, group_id STRING(36) NOT NULL REFERENCES ""groups"" (""id""), ""name"" STRING(255) NOT NULL, ""age"" INT64 DEFAULT 0 NOT NULL CHECK (""age"" >= 0), description STRING, CreatedAt TIMESTAMP) PRIMARY KEY (""id""), ROW DELETION POLICY (OLDER_THAN(CreatedAt, INTERVAL 30 DAY));" "CREATE TABLE ""users"" (id STRING(36) NOT NULL, group_id STRING(36) NOT NULL REFERENCES ""groups"" (""id""), ""name"" STRING(255) NOT NULL, ""age"" INT64 DEFAULT 0 NOT NULL CHECK (""age"" >= 0), description STRING, CreatedAt TIMESTAMP) PRIMARY KEY (""id""), ROW DELETION POLICY (OLDER_THAN(CreatedAt, INTERVAL 7 DAY));" = Ok "ALTER TABLE ""users"" REPLACE ROW DELETION POLICY (OLDER_THAN(CreatedAt, INTERVAL 7 DAY));
".
Proof. vm_compute. reflexivity. Qed.

(* success,ALTER_REPLACE_DROP_DELETION_POLICY *)
Example diff_table_Sp_14 : diff_first_tables Sp false "CREATE TABLE ""users"" (id STRING(36) NOT NULL, group_id STRING(36) NOT NULL REFERENCES ""groups"" (""id""), ""name"" STRING(255) NOT NULL, ""age"" INT64 DEFAULT 0 NOT NULL CHECK (""age"" >= 0), description STRING, CreatedAt TIMESTAMP) PRIMARY KEY (""id""), ROW DELETION POLICY (OLDER_THAN(CreatedAt, INTERVAL 30 DAY));" "CREATE TABLE ""users"" (id STRING(36) NOT NULL, group_id STRING(36) NOT NULL REFERENCES ""groups"" (""id""), ""name"" STRING(255) NOT NULL, ""age"" INT64 DEFAULT 0 NOT NULL CHECK (""age"" >= 0), description STRING, CreatedAt TIMESTAMP) PRIMARY KEY (""id"");" = Ok "ALTER TABLE ""users"" DROP ROW DELETION POLICY;
".
Proof. vm_compute. reflexivity. Qed.

(* success,DROP_ADD_FOREIGN_KEY *)
Example diff_table_Sp_15 : diff_first_tables Sp false "CREATE TABLE ""users"" (id STRING(36) NOT NULL, group_id STRING(36) NOT NULL, ""name"" STRING(255) NOT NULL, ""age"" INT64 DEFAULT 0 NOT NULL CHECK (""age"" >= 0), description STRING, CONSTRAINT users_group_id_fkey FOREIGN KEY (group_id) REFERENCES ""groups"" (""id"")) PRIMARY KEY (""id"");" "CREATE TABLE ""users"" (id STRING(36) NOT NULL, group_id STRING(36) NOT NULL, ""name"" STRING(255) NOT NULL, ""age"" INT64 DEFAULT 0 NOT NULL CHECK (""age"" >= 0), description STRING, CONSTRAINT users_group_id_fkey FOREIGN KEY (group_id, name) REFERENCES ""groups"" (""id"", name)) PRIMARY KEY (""id"");" = Ok "ALTER TABLE ""users"" DROP CONSTRAINT users_group_id_fkey;
ALTER TABLE ""users"" ADD CONSTRAINT users_group_id_fkey FOREIGN KEY (group_id, name) REFERENCES ""groups"" (""id"", name);
".
Proof. vm_compute. reflexivity. Qed.

(* success,DROP_ADD_UNIQUE *)
Example diff_table_Sp_16 : diff_first_tables Sp false "CREATE TABLE ""users"" (id STRING(36) NOT NULL, group_id STRING(36) NOT NULL, ""name"" STRING(255) NOT NULL, ""age"" INT64 DEFAULT 0 NOT NULL CHECK (""age"" >= 0), description STRING, CONSTRAINT users_group_id_fkey FOREIGN KEY (group_id) REFERENCES ""groups"" (""id"")) PRIMARY KEY (""id"");" "CREATE TABLE ""users"" (id STRING(36) NOT NULL, group_id STRING(36) NOT NULL, ""name"" STRING(255) NOT NULL, ""age"" INT64 DEFAULT 0 NOT NULL CHECK (""age"" >= 0), description STRING, CONSTRAINT users_group_id_fkey_2 FOREIGN KEY (group_id) REFERENCES ""groups"" (""id"")) PRIMARY KEY (""id"");" = Ok "ALTER TABLE ""users"" DROP CONSTRAINT users_group_id_fkey;
ALTER TABLE ""users"" ADD CONSTRAINT users_group_id_fkey_2 FOREIGN KEY (group_id) REFERENCES ""groups"" (""id"");
".
Proof. vm_compute. reflexivity. Qed.

(* success,ALTER_COLUMN_SET_DEFAULT_OVERWRITE *)
Example diff_table_Sp_17 : diff_first_tables Sp false "CREATE TABLE ""users"" (id STRING(36) NOT NULL, group_id STRING(36) NOT NULL, ""name"" STRING(255) NOT NULL, ""age"" INT64 DEFAULT 0 NOT NULL CHECK (""age"" >= 0), description STRING) PRIMARY KEY (""id"");" "CREATE TABLE ""users"" (id STRING(36) NOT NULL, group_id STRING(36) NOT NULL, ""name"" STRING(255) NOT NULL, ""age"" INT64 DEFAULT ( (0 + 3) - 1 * 4 / 2 ) NOT NULL CHECK (""age"" >= 0), description STRING) PRIMARY KEY (""id"");" = Ok "ALTER TABLE ""users"" ALTER COLUMN ""age"" SET DEFAULT ((0 + 3) - 1 * 4 / 2);
".
Proof. vm_compute. reflexivity. Qed.

(* success,ALTER_COLUMN_SET_DEFAULT_complex *)
Example diff_table_Sp_18 : diff_first_tables Sp false "CREATE TABLE complex_defaults (
    id INT64,
    created_at TIMESTAMP OPTIONS (allow_commit_timestamp=true, option_name=null),
    updated_at TIMESTAMP,
    unique_code STRING,
    status STRING DEFAULT ('pending'),
    random_number INT64 DEFAULT (FLOOR(RANDOM() * 100)),
    json_data JSON DEFAULT ('{}'),
    calculated_value INT64 DEFAULT (SELECT COUNT(*) FROM another_table)
)  PRIMARY KEY (id);
" "CREATE TABLE complex_defaults (
    id INT64,
    created_at TIMESTAMP,
    updated_at TIMESTAMP OPTIONS (allow_commit_timestamp=true, option_name=null),
    unique_code STRING DEFAULT (GENERATE_UUID()),
    status STRING DEFAULT ('pending'),
    random_number INT64 DEFAULT (FLOOR(RANDOM() * 100)),
    json_data JSON DEFAULT ('{}'),
    calculated_value INT64 DEFAULT (SELECT COUNT(*) FROM another_table)
) PRIMARY KEY (id);
" = Ok "ALTER TABLE complex_defaults ALTER COLUMN created_at DROP OPTIONS;
ALTER TABLE complex_defaults ALTER COLUMN updated_at SET OPTIONS (allow_commit_timestamp = TRUE, option_name = NULL);
ALTER TABLE complex_defaults ALTER COLUMN unique_code SET DEFAULT (GENERATE_UUID());
".
Proof. vm_compute. reflexivity. Qed.

(* success,before,after,Table *)
Example diff_text_Sp_1 : diff_texts Sp "CREATE TABLE public.users (
    user_id STRING(36) NOT NULL,
    username STRING(256) NOT NULL,
    is_verified BOOL NOT NULL DEFAULT (false),
    created_at TIMESTAMP NOT NULL DEFAULT (CURRENT_TIMESTAMP()),
) PRIMARY KEY (user_id);
" "CREATE TABLE public.users (
    user_id STRING(36) NOT NULL,
    username STRING(256) NOT NULL,
    is_verified BOOL NOT NULL DEFAULT (false),
    created_at TIMESTAMP NOT NULL DEFAULT (CURRENT_TIMESTAMP()),
    updated_at TIMESTAMP NOT NULL DEFAULT (CURRENT_TIMESTAMP()),
) PRIMARY KEY (user_id);
" = Ok "ALTER TABLE public.users ADD COLUMN updated_at TIMESTAMP NOT NULL DEFAULT (CURRENT_TIMESTAMP());
".
Proof. vm_compute. reflexivity. Qed.

(* success,before,after,Table,Asc *)
Example diff_text_Sp_2 : diff_texts Sp "CREATE TABLE users (
    user_id STRING(36) NOT NULL,
    username STRING(256) NOT NULL,
    is_verified BOOL NOT NULL DEFAULT (false),
    created_at TIMESTAMP NOT NULL DEFAULT (CURRENT_TIMESTAMP()),
    updated_at TIMESTAMP NOT NULL DEFAULT (CURRENT_TIMESTAMP()),
) PRIMARY KEY (user_id);
CREATE INDEX users_idx_by_username ON users (username DESC);
" "CREATE TABLE users (
    user_id STRING(36) NOT NULL,
    username STRING(256) NOT NULL,
    is_verified BOOL NOT NULL DEFAULT (false),
    created_at TIMESTAMP NOT NULL DEFAULT (CURRENT_TIMESTAMP()),
    updated_at TIMESTAMP NOT NULL DEFAULT (CURRENT_TIMESTAMP()),
) PRIMARY KEY (user_id);
CREATE INDEX users_idx_by_username ON users (username ASC);
" = Ok "DROP INDEX users_idx_by_username;
CREATE INDEX users_idx_by_username ON users (username ASC);
".
Proof. vm_compute. reflexivity. Qed.

(* success,before,after,Index *)
Example diff_text_Sp_3 : diff_texts Sp "CREATE UNIQUE INDEX IF NOT EXISTS public.users_idx_by_username ON public.users (username DESC);" "CREATE UNIQUE INDEX IF NOT EXISTS public.users_idx_by_username ON public.users (username ASC, age ASC);" = Ok "DROP INDEX public.users_idx_by_username;
CREATE UNIQUE INDEX IF NOT EXISTS public.users_idx_by_username ON public.users (username ASC, age ASC);
".
Proof. vm_compute. reflexivity. Qed.

(* success,STRING(10)->STRING(11) *)
Example diff_text_Sp_4 : diff_texts Sp "CREATE TABLE public.users ( username STRING(10) NOT NULL );" "CREATE TABLE public.users ( username STRING(11) NOT NULL );" = Ok "ALTER TABLE public.users ALTER COLUMN username STRING(11) NOT NULL;
".
Proof. vm_compute. reflexivity. Qed.

(* success,SET_DEFAULT_TRUE_FALSE *)
Example diff_text_Sp_5 : diff_texts Sp "CREATE TABLE public.passwords ( user_id STRING(36) NOT NULL, password STRING NOT NULL, is_verified BOOL NOT NULL DEFAULT (false), is_expired BOOL NOT NULL DEFAULT (true) );" "CREATE TABLE public.passwords ( user_id STRING(36) NOT NULL, password STRING NOT NULL, is_verified BOOL NOT NULL DEFAULT (FALSE), is_expired BOOL NOT NULL DEFAULT (TRUE) );" = Ok "".
Proof. vm_compute. reflexivity. Qed.

(* success,ddl.ErrNoDifference,SameContent *)
Example diff_text_Sp_6 : diff_texts Sp "CREATE TABLE passwords ( user_id STRING(36) NOT NULL, password STRING NOT NULL, is_verified BOOL NOT NULL DEFAULT (false), is_expired BOOL NOT NULL DEFAULT (true) );" "CREATE TABLE ""passwords"" ( ""user_id"" STRING(36) NOT NULL, ""password"" STRING NOT NULL, ""is_verified"" BOOL NOT NULL DEFAULT (FALSE), ""is_expired"" BOOL NOT NULL DEFAULT (TRUE) );" = Ok "".
Proof. vm_compute. reflexivity. Qed.
