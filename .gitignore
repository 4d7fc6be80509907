.lia.cache
.nia.cache
*.vo
*.vok
*.vos
*.glob
*.aux
.Makefile.d
rocq/Makefile
rocq/Makefile.conf
